(** The keys of the data the object keeps, and the panels of its sheet of plots. *)
From Coq Require Import Lia.
From Verif Require Import Base BaseLemmas UtilsModel MeasureModel SegmentModel DataModel DataSpec DataLemmas InitModel InitSpec InitLemmas PlotModel PlotSpec PlotLemmas.
Open Scope string_scope.
Open Scope nat_scope.
Open Scope list_scope.

Definition own_keys : list string :=
  ["t"; "t_zeroecc"; "amplm"; "amplm_zeroecc"; "phaselm"; "phaselm_zeroecc"; "omegalm"; "omegalm_zeroecc"].
Definition seven : list panel := [PEcc; PMean; POmega; PData; PDecc; PRatio; PAverage].

Section Keys.
  Variable C : Type.
  Variables (cabs cphase : C -> list Q) (cpolar : list Q -> list Q -> res C) (rotate : list Q -> list C -> res (list C)) (qsqrt : Q -> Q).
  Notation own d := (forall k, In k (dkeys d) -> In k own_keys).
  Lemma own_sset {A} (d : sdict A) k v : own d -> In k own_keys -> own (sset d k v).
  Proof.
    unfold sset, dkeys. induction d as [|[x u] d IH]; cbn [dset map fst]; intros H K y I; [destruct I as [<-|[]]; exact K|].
    destruct (String.eqb k x); cbn [map fst] in I; (destruct I as [<-|I]; [|auto]); auto; try (apply H; now left); try (apply H; now right).
    apply IH; auto. intros z Z. apply H. now right.
  Qed.
  Lemma own_data h d apo : get_amp_phase_omega_data C cabs cphase h d = Ok apo -> own apo.
  Proof.
    unfold get_amp_phase_omega_data. intros H. apply bind_ok in H. destruct H as (a & A & H). apply bind_ok in H. destruct H as (p & P & H).
    cbv zeta in H. apply bind_ok in H. destruct H as (ph & _ & H). apply bind_ok in H. destruct H as (w & _ & H). apply bind_ok in H. destruct H as (z & Z & H). apply Ok_inj in H. subst apo.
    assert (OA : own a).
    { unfold get_amplm_from_dataDict in A. apply bind_ok in A. destruct A as (x & _ & A). apply bind_ok in A. destruct A as (y & _ & A). apply Ok_inj in A. subst a. intros k I. destruct y; cbn in *; intuition (subst; tauto). }
    assert (OP : own p).
    { unfold get_phaselm_from_dataDict in P. apply bind_ok in P. destruct P as (x & _ & P). apply bind_ok in P. destruct P as (y & _ & P). apply Ok_inj in P. subst p. intros k I. destruct y; cbn in *; intuition (subst; tauto). }
    assert (OZ : own z).
    { destruct (slookup d "omegalm_zeroecc"); [apply Ok_inj in Z; subst z; intros k I; cbn in *; intuition (subst; tauto)|].
      destruct (slookup (a ++ p) "phaselm_zeroecc"); [|apply Ok_inj in Z; subst z; intros k []]. destruct (slookup d "t_zeroecc"); [|apply Ok_inj in Z; subst z; intros k []].
      apply bind_ok in Z. destruct Z as (x & _ & Z). apply bind_ok in Z. destruct Z as (y & _ & Z). apply bind_ok in Z. destruct Z as (v & _ & Z). apply Ok_inj in Z. subst z. intros k I; cbn in *; intuition (subst; tauto). }
    intros k I. unfold dkeys in *. rewrite !map_app in I. apply in_app_or in I. destruct I as [I|I]; [apply in_app_or in I; destruct I; auto|].
    cbn [map fst] in I. destruct I as [<-|I]; [cbn; tauto|auto].
  Qed.
  Lemma own_cut idx d k h h' w d' : cut_entry C idx d k h = (h', (w, Ok d')) -> In k own_keys -> own d -> own d'.
  Proof.
    unfold cut_entry. intros H K O. destruct (sget d k) as [[| | | |]|]; try discriminate H.
    all: try (injection H as _ _ <-; now apply own_sset).
    destruct (nth_error h p) as [[| |]|]; try discriminate H. injection H as _ _ <-. exact O.
  Qed.
  Lemma own_process level pr frame num p h h' w r : process_data_dict C cabs cphase cpolar rotate qsqrt level pr frame num p h = (h', (w, Ok r)) -> own (p_dict C r).
  Proof.
    unfold process_data_dict. intros H. apply mbind_ok in H. destruct H as (h1 & w1 & w2 & f & F & H & _). apply mbind_ok in H. destruct H as (h2 & w3 & w4 & d & D & H & _).
    apply ret_ok in H. destruct H as (_ & _ & ->). cbn [p_dict].
    assert (OF : own (f_dict C f)).
    { rewrite readw_eq in F. apply mbind_ok in F. destruct F as (h3 & ? & ? & d0 & _ & F & _). apply mbind_ok in F. destruct F as (h4 & ? & ? & [] & _ & F & _).
      apply mbind_ok in F. destruct F as (h5 & ? & ? & d1 & _ & F & _). unfold rest in F. apply mbind_ok in F. destruct F as (h6 & ? & ? & t & _ & F & _).
      apply mbind_ok in F. destruct F as (h7 & ? & ? & apo & A & F & _). apply read_ok in A. destruct A as (_ & _ & A). assert (A' := own_data _ _ _ A). clear A. apply read_ok in F. destruct F as (_ & _ & F).
      assert (E : f_dict C f = ("t", VArr C t) :: match slookup d1 "t_zeroecc" with Some v => [("t_zeroecc", v)] | None => [] end ++ apo).
      { unfold merger_data in F. do 3 (apply bind_ok in F; destruct F as (? & _ & F)). cbv zeta in F. apply bind_ok in F. destruct F as (? & _ & F). apply bind_ok in F. destruct F as ([[? ?] ?] & _ & F).
        repeat (apply bind_ok in F; destruct F as (? & _ & F)). destruct (Qlt_bool _ _) in F; [discriminate|]. destruct (Qlt_bool _ _) in F; [discriminate|].
        apply bind_ok in F. destruct F as (? & _ & F). apply Ok_inj in F. subst f. reflexivity. }
      rewrite E. intros k I. unfold dkeys in *. cbn [map fst] in I. destruct I as [<-|I]; [cbn; tauto|]. rewrite map_app in I. apply in_app_or in I. destruct I as [I|I]; [|now apply A'].
      destruct (slookup d1 "t_zeroecc"); cbn in *; intuition (subst; tauto). }
    unfold truncate in D. destruct num as [n|]; [|apply ret_ok in D; destruct D as (_ & _ & ->); exact OF].
    destruct (Qlt_bool n 0); [apply lift_ok in D; destruct D as (_ & _ & D); discriminate|].
    apply mbind_ok in D. destruct D as (h3 & ? & ? & idx & _ & D & _). apply mbind_ok in D. destruct D as (h4 & ? & ? & d1 & D1 & D & _). apply mbind_ok in D. destruct D as (h5 & ? & ? & d2 & D2 & D & _).
    apply mbind_ok in D. destruct D as (h6 & ? & ? & d3 & D3 & D & _). apply ret_ok in D. destruct D as (_ & _ & ->).
    assert (O1 : own d1) by (eapply own_cut; [exact D1|cbn; tauto|exact OF]). assert (O2 : own d2) by (eapply own_cut; [exact D2|cbn; tauto|exact O1]).
    assert (O3 : own d3) by (eapply own_cut; [exact D3|cbn; tauto|exact O2]). apply own_sset; [exact O3|cbn; tauto].
  Qed.
End Keys.

Section Built.
  Context {C V : Type}.
  Variable L : library C V.
  Lemma build_base m a p (w w' : world C) l ob : build L m a p w = (w', (l, Ok ob)) -> exists w1 l1, init L a p w = (w1, (l1, Ok (o_base ob))) /\ o_method ob = m.
  Proof.
    unfold build. intros H. apply wbind_ok in H. destruct H as (w1 & l1 & l2 & b & I & H & _). cbv zeta in H. exists w1, l1.
    assert (G : o_base ob = b /\ o_method ob = m); [|destruct G as [-> ->]; auto].
    repeat match type of H with (if ?b then _ else _) _ = _ => destruct b end;
      repeat (apply wbind_ok in H; destruct H as (? & ? & ? & ? & _ & H & _)); apply wret_ok in H; destruct H as (_ & _ & ->); auto.
  Qed.
  Lemma built_keys m a p (w w' : world C) l ob k : build L m a p w = (w', (l, Ok ob)) -> In k (b_dict_keys (o_base ob)) -> In k own_keys.
  Proof.
    intros H K. apply build_base in H. destruct H as (w1 & l1 & H & _). apply init_ok in H.
    destruct H as (rf & pd & t & gw & fl & extra & ek & n & wv & op & user & rs & m1 & m2 & h' & _ & _ & P & _ & _ & _ & _ & _ & _ & _ & _ & _ & _ & _ & _ & B & _).
    rewrite B in K. cbn [base_of b_dict_keys] in K. eapply own_process; eauto.
  Qed.
  Lemma built_panels m a p (w w' : world C) l ob : build L m a p w = (w', (l, Ok ob)) -> panels (b_dict_keys (o_base ob)) (o_method ob) = seven.
  Proof.
    intros H. unfold panels. destruct (existsb _ _) eqn:E; [|reflexivity]. exfalso. apply existsb_exists in E. destruct E as (k & I & K). apply String.eqb_eq in K. subst k.
    apply (built_keys _ _ _ _ _ _ _ _ H) in I. cbn in I. intuition discriminate.
  Qed.
End Built.
