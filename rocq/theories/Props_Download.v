(** Properties of downloading SXS waveforms (C89). *)
From Coq Require Import DecimalString Lia.
From Verif Require Import Base UtilsModel MeasureModel LoadModel LoadSpec DownloadModel DownloadSpec DownloadLemmas LoadToy LoadCases.
Open Scope string_scope.
Open Scope nat_scope.

(** C89.  After a successful call the directory and all wanted files are there.  A file that was there before is unchanged and not fetched; a missing one
    is fetched once and holds what the server offers; nothing else changes. *)
Theorem C89_fetches : forall (V : server) (id : string) (lev : Z) (data_dir : string) (order : Z) (tag : string) k evs d,
  download_sxs_waveform V id lev data_dir order tag k = (evs, Ok d) ->
  d = (target_dir V id lev data_dir) /\ present (after k evs) (target_dir V id lev data_dir) /\
  (forall n, wanted_files order n -> present (after k evs) ((target_dir V id lev data_dir) ++ "/" ++ n) /\
     (present k ((target_dir V id lev data_dir) ++ "/" ++ n) -> content (after k evs) ((target_dir V id lev data_dir) ++ "/" ++ n) = content k ((target_dir V id lev data_dir) ++ "/" ++ n) /\ ~ In ((target_dir V id lev data_dir) ++ "/" ++ n) (fetches evs)) /\
     (~ present k ((target_dir V id lev data_dir) ++ "/" ++ n) -> (exists c, offered V tag id lev n c /\ content (after k evs) ((target_dir V id lev data_dir) ++ "/" ++ n) = Some c) /\ In ((target_dir V id lev data_dir) ++ "/" ++ n) (fetches evs))) /\
  NoDup (fetches evs) /\
  (forall p, (forall n, wanted_files order n -> p <> (target_dir V id lev data_dir) ++ "/" ++ n) -> content (after k evs) p = content k p /\ ~ In p (fetches evs)).
Proof. exact fetched_all. Qed.
Print Assumptions C89_fetches.
Example C89_fetches_ex : exists evs, download_sxs_waveform toy_server "SXS:BBH:0001" 3 "data" 2 "v3.0.0" toy_disk = (evs, Ok toy_dir) /\ fetches evs = [toy_dir ++ "/Strain_N2.h5"; toy_dir ++ "/Strain_N2.json"; toy_dir ++ "/Horizons.h5"].
Proof. eexists. split; vm_compute; reflexivity. Qed.
(** C89.  Whatever happens, and at whatever step the call is interrupted, no file that was there is lost or changed. *)
Theorem C89_kept : forall (V : server) (id : string) (lev : Z) (data_dir : string) (order : Z) (tag : string) k n p c,
  content k p = Some c -> content (after k (firstn n (fst (download_sxs_waveform V id lev data_dir order tag k)))) p = Some c.
Proof. exact kept. Qed.
Print Assumptions C89_kept.
Example C89_kept_ex : content toy_disk (toy_dir ++ "/metadata.json") = Some "old" /\ 3 < length (fst (download_sxs_waveform toy_server "SXS:BBH:0001" 3 "data" 2 "v3.0.0" toy_disk)).
Proof. split; [reflexivity|vm_compute; lia]. Qed.
(** C89.  Interrupted after any number of steps and called again, it fetches exactly the rest, with the same result and the same files. *)
Theorem C89_resume_once : forall (V : server) (id : string) (lev : Z) (data_dir : string) (order : Z) (tag : string) k evs d n,
  download_sxs_waveform V id lev data_dir order tag k = (evs, Ok d) -> exists evs', download_sxs_waveform V id lev data_dir order tag (after k (firstn n evs)) = (evs', Ok d) /\ fetches evs = (fetches (firstn n evs) ++ fetches evs')%list /\ same_content (after (after k (firstn n evs)) evs') (after k evs).
Proof. exact resume_once. Qed.
Print Assumptions C89_resume_once.
Example C89_resume_once_ex : exists evs evs', download_sxs_waveform toy_server "SXS:BBH:0001" 3 "data" 2 "v3.0.0" toy_disk = (evs, Ok toy_dir) /\ download_sxs_waveform toy_server "SXS:BBH:0001" 3 "data" 2 "v3.0.0" (after toy_disk (firstn 2 evs)) = (evs', Ok toy_dir) /\ fetches evs' = [toy_dir ++ "/Strain_N2.json"; toy_dir ++ "/Horizons.h5"].
Proof. do 2 eexists. split; [vm_compute; reflexivity|]. split; vm_compute; reflexivity. Qed.
(** C89.  After any number of calls that failed because of the network, or were interrupted between two steps, a call gives the same files as one
    uninterrupted call would have given at first. *)
Theorem C89_resume : forall (V : server) (id : string) (lev : Z) (data_dir : string) (order : Z) (tag : string) k k' evs d,
  download_sxs_waveform V id lev data_dir order tag k = (evs, Ok d) -> attempts V id lev data_dir order tag k k' -> exists evs', download_sxs_waveform V id lev data_dir order tag k' = (evs', Ok d) /\ same_content (after k' evs') (after k evs) /\ incl (fetches evs') (fetches evs).
Proof. exact resume. Qed.
Print Assumptions C89_resume.
Example C89_resume_ex : exists k, attempts toy_server "SXS:BBH:0001" 3 "data" 2 "v3.0.0" toy_disk k /\ content k (toy_dir ++ "/Strain_N2.h5") <> None /\ content k (toy_dir ++ "/Horizons.h5") = None.
Proof. eexists. split; [apply (attempt _ _ _ _ _ _ _ toy_server 2); [repeat split; auto|]; apply (attempt _ _ _ _ _ _ _ toy_server 1); [repeat split; auto|]; apply none|].
  split; vm_compute; [discriminate|reflexivity]. Qed.
(** C89.  The files are put into <data_dir>/<id>/Lev<lev>, with ~ expanded and _ for : in the id. *)
Theorem C89_directory : forall (V : server) (id : string) (lev : Z) (data_dir : string) (order : Z) (tag : string) k evs d,
  download_sxs_waveform V id lev data_dir order tag k = (evs, Ok d) ->
  sv_expand V data_dir <> "" -> ~ ends_with_slash (sv_expand V data_dir) -> id <> "" -> ~ starts_with_slash id -> ~ ends_with_slash id ->
  exists id', underscored id id' /\ d = sv_expand V data_dir ++ "/" ++ id' ++ "/Lev" ++ NilZero.string_of_int (Z.to_int lev).
Proof. exact directory. Qed.
Print Assumptions C89_directory.
Example C89_directory_ex : ~ ends_with_slash (sv_expand toy_server "data") /\ ~ starts_with_slash "SXS:BBH:0001" /\ ~ ends_with_slash "SXS:BBH:0001" /\ exists evs, download_sxs_waveform toy_server "SXS:BBH:0001" 3 "data" 2 "v3.0.0" toy_disk = (evs, Ok "/home/x/data/SXS_BBH_0001/Lev3").
Proof. split; [intros X; apply slash_end in X; vm_compute in X; discriminate X|]. split; [intros [r X]; discriminate X|]. split; [intros X; apply slash_end in X; vm_compute in X; discriminate X|]. eexists. vm_compute. reflexivity. Qed.
(** C89.  A further call fetches nothing and changes no file. *)
Theorem C89_again : forall (V : server) (id : string) (lev : Z) (data_dir : string) (order : Z) (tag : string) k evs d,
  download_sxs_waveform V id lev data_dir order tag k = (evs, Ok d) -> exists evs', download_sxs_waveform V id lev data_dir order tag (after k evs) = (evs', Ok d) /\ fetches evs' = [] /\ same_content (after (after k evs) evs') (after k evs).
Proof. exact again. Qed.
Print Assumptions C89_again.
Example C89_again_ex : exists evs, download_sxs_waveform toy_server "SXS:BBH:0001" 3 "data" 2 "v3.0.0" toy_disk = (evs, Ok toy_dir) /\ download_sxs_waveform toy_server "SXS:BBH:0001" 3 "data" 2 "v3.0.0" (after toy_disk evs) = ([MadeDir toy_dir], Ok toy_dir).
Proof. eexists. split; vm_compute; reflexivity. Qed.
(** C89.  An unknown simulation raises ValueError and fetches nothing.  Finding: its directory has been made. *)
Theorem C89_unknown : forall (V : server) (id : string) (lev : Z) (data_dir : string) (order : Z) (tag : string) k cat,
  content k (target_dir V id lev data_dir) = None -> sv_catalog V tag = Ok cat -> slookup cat id = None -> snd (download_sxs_waveform V id lev data_dir order tag k) = Err ValueError /\ fetches (fst (download_sxs_waveform V id lev data_dir order tag k)) = [] /\ present (after k (fst (download_sxs_waveform V id lev data_dir order tag k))) (target_dir V id lev data_dir).
Proof. exact unknown_id. Qed.
Print Assumptions C89_unknown.
Example C89_unknown_ex : download_sxs_waveform toy_server "SXS:BBH:0002" 3 "data" 2 "v3.0.0" toy_disk = ([MadeDir "/home/x/data/SXS_BBH_0002/Lev3"], Err ValueError).
Proof. vm_compute. reflexivity. Qed.
(** C89.  What has been downloaded is enough for loading: the files that loading from the catalog at this extrapolation order needs (C85), and Horizons.h5. *)
Theorem C89_enough : forall (V : server) (id : string) (lev : Z) (data_dir : string) (order : Z) (tag : string) (S : sources) k evs d u,
  download_sxs_waveform V id lev data_dir order tag k = (evs, Ok d) -> reads S (after k evs) d order -> asked "SXSCatalog" u "extrap_order" (Some (ANum (inject_Z order))) ->
  so_dir S d = true /\ so_exists S d FHorizons = true /\ forall f, needs "SXSCatalog" u f -> so_exists S d f = true.
Proof. exact enough. Qed.
Print Assumptions C89_enough.
Example C89_enough_ex : exists evs, download_sxs_waveform toy_server "SXS:BBH:0001" 3 "data" 2 "v3.0.0" toy_disk = (evs, Ok toy_dir) /\ reads (disk_sources (after toy_disk evs)) (after toy_disk evs) toy_dir 2 /\ asked "SXSCatalog" (sxs_kw toy_dir []) "extrap_order" (Some (ANum (inject_Z 2))).
Proof. exact toy_reads. Qed.
