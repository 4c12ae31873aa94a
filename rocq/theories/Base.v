(** Shared vocabulary of the model: exceptions as values, Python lists, dictionaries.
    Nothing here models a particular function of /repo; each definition names the
    Python or numpy primitive it stands for. *)
From Coq Require Export String List Arith ZArith QArith Qabs Qround Bool.
Export ListNotations.
Open Scope nat_scope.

(** Exception classes raised by the code.  Messages are not modelled.
    [NonFinite] and [OutOfFuel] are not Python exceptions: [NonFinite] marks a place where
    numpy goes on with inf or nan (outside the modelled numbers), [OutOfFuel] marks
    a loop that did not finish within the fuel given. *)
Inductive exn : Type :=
| KeyError | ValueError | TypeError | IndexError | ZeroDivisionError | NameError
| AttributeError | LinAlgError | AssertionError | FileNotFoundError
| GenericException                     (* raise Exception(...) *)
| NonFinite | OutOfFuel.

Inductive res (A : Type) : Type :=
| Ok (a : A)
| Err (e : exn).
Arguments Ok {A} a.
Arguments Err {A} e.

Definition bind {A B} (m : res A) (f : A -> res B) : res B :=
  match m with Ok a => f a | Err e => Err e end.
Notation "'do' x <- m ; k" := (bind m (fun x => k))
  (at level 200, x name, m at level 100, k at level 200).
Notation "'do' ' p <- m ; k" := (bind m (fun p => k))
  (at level 200, p strict pattern, m at level 100, k at level 200).

Definition is_ok {A} (m : res A) : bool := match m with Ok _ => true | Err _ => false end.

(** Python/numpy scalars: comparisons on rationals as booleans. *)
Definition Qlt_bool (x y : Q) : bool := negb (Qle_bool y x).
Definition Qmaxb (x y : Q) : Q := if Qle_bool x y then y else x.
Definition Qminb (x y : Q) : Q := if Qle_bool x y then x else y.

(** np.pi: the double 0x400921FB54442D18, a dyadic rational. *)
Definition np_pi : Q := 884279719003555 # 281474976710656.

(** numpy: l[i] for 0 <= i, IndexError outside. *)
Definition get {A} (l : list A) (i : nat) : res A :=
  match nth_error l i with Some a => Ok a | None => Err IndexError end.

(** Python: l[i] for any integer i; negative counts from the end. *)
Definition zget {A} (l : list A) (i : Z) : res A :=
  let n := Z.of_nat (length l) in
  if (0 <=? i)%Z then get l (Z.to_nat i)
  else if (0 <=? n + i)%Z then get l (Z.to_nat (n + i)) else Err IndexError.

(** l[-1] *)
Definition last_of {A} (l : list A) : res A := zget l (-1).

(** Python slice l[a:b] for natural a, b. *)
Definition slice {A} (l : list A) (a b : nat) : list A := firstn (b - a) (skipn a l).

(** Python slice bound: a negative bound counts from the end, clipped at 0. *)
Definition norm_bound (n : nat) (i : Z) : nat :=
  if (0 <=? i)%Z then Z.to_nat i else Z.to_nat (Z.of_nat n + i).

(** Python slice l[a:b] for integers a, b. *)
Definition zslice {A} (l : list A) (a b : Z) : list A :=
  slice l (norm_bound (length l) a) (norm_bound (length l) b).

(** numpy fancy indexing l[idx] with natural indices. *)
Fixpoint gather {A} (l : list A) (idx : list nat) : res (list A) :=
  match idx with
  | [] => Ok []
  | i :: r => do a <- get l i; do b <- gather l r; Ok (a :: b)
  end.

(** np.where(p(l))[0] *)
Fixpoint where_from {A} (p : A -> bool) (i : nat) (l : list A) : list nat :=
  match l with
  | [] => []
  | a :: r => if p a then i :: where_from p (S i) r else where_from p (S i) r
  end.
Definition where_idx {A} (p : A -> bool) (l : list A) : list nat := where_from p 0 l.

(** np.diff *)
Fixpoint qdiff (l : list Q) : list Q :=
  match l with
  | a :: ((b :: _) as r) => (b - a)%Q :: qdiff r
  | _ => []
  end.

(** First index of the largest element: np.argmax. *)
Fixpoint argmax_from (best : Q) (bi i : nat) (l : list Q) : nat :=
  match l with
  | [] => bi
  | a :: r => if Qlt_bool best a then argmax_from a i (S i) r else argmax_from best bi (S i) r
  end.
Definition argmax (l : list Q) : res nat :=
  match l with [] => Err ValueError | a :: r => Ok (argmax_from a 0 1 r) end.

(** First index of the smallest element: np.argmin. *)
Definition argmin (l : list Q) : res nat := argmax (map Qopp l).

(** np.argmax on a boolean array: first True, 0 if there is none. *)
Fixpoint find_from {A} (p : A -> bool) (i : nat) (l : list A) : option nat :=
  match l with
  | [] => None
  | a :: r => if p a then Some i else find_from p (S i) r
  end.
Definition find_index {A} (p : A -> bool) (l : list A) : option nat := find_from p 0 l.
Definition argmax_bool {A} (p : A -> bool) (l : list A) : nat :=
  match find_index p l with Some i => i | None => 0 end.

(** np.min / np.max / Python min, max of a sequence. *)
Fixpoint qmin_from (m : Q) (l : list Q) : Q :=
  match l with [] => m | a :: r => qmin_from (Qminb m a) r end.
Fixpoint qmax_from (m : Q) (l : list Q) : Q :=
  match l with [] => m | a :: r => qmax_from (Qmaxb m a) r end.
Definition qmin (l : list Q) : res Q :=
  match l with [] => Err ValueError | a :: r => Ok (qmin_from a r) end.
Definition qmax (l : list Q) : res Q :=
  match l with [] => Err ValueError | a :: r => Ok (qmax_from a r) end.

(** int(x) for a float x: truncation towards zero. *)
Definition q_int (x : Q) : Z := Z.quot (Qnum x) (Zpos (Qden x)).
(** np.ceil *)
Definition q_ceil (x : Q) : Z := Qceiling x.

(** Elementwise product and dot product. *)
Fixpoint qdot (a b : list Q) : Q :=
  match a, b with x :: a', y :: b' => (x * y + qdot a' b')%Q | _, _ => 0%Q end.
Fixpoint qsum (a : list Q) : Q := match a with [] => 0%Q | x :: r => (x + qsum r)%Q end.
Fixpoint map2 {A B C} (f : A -> B -> C) (a : list A) (b : list B) : list C :=
  match a, b with x :: a', y :: b' => f x y :: map2 f a' b' | _, _ => [] end.

(** Dictionaries: association lists in insertion order with distinct keys. *)
Section Dict.
  Context {K V : Type} (keq : K -> K -> bool).
  Definition dict := list (K * V).
  Fixpoint dlookup (d : dict) (k : K) : option V :=
    match d with
    | [] => None
    | (k', v) :: r => if keq k k' then Some v else dlookup r k
    end.
  Definition dmem (d : dict) (k : K) : bool :=
    match dlookup d k with Some _ => true | None => false end.
  (** d[k] = v : replace in place or append. *)
  Fixpoint dset (d : dict) (k : K) (v : V) : dict :=
    match d with
    | [] => [(k, v)]
    | (k', v') :: r => if keq k k' then (k', v) :: r else (k', v') :: dset r k v
    end.
  (** d.pop(k, None) *)
  Fixpoint dpop (d : dict) (k : K) : dict :=
    match d with
    | [] => []
    | (k', v') :: r => if keq k k' then r else (k', v') :: dpop r k
    end.
  Definition dkeys (d : dict) : list K := map fst d.
  (** d[k], KeyError when missing *)
  Definition dget (d : dict) (k : K) : res V :=
    match dlookup d k with Some v => Ok v | None => Err KeyError end.
  (** d.update(e) *)
  Fixpoint dupdate (d e : dict) : dict :=
    match e with [] => d | (k, v) :: r => dupdate (dset d k v) r end.
End Dict.
Arguments dict : clear implicits.

Definition sdict (V : Type) := dict string V.
Definition slookup {V} (d : sdict V) (k : string) := dlookup String.eqb d k.
Definition smem {V} (d : sdict V) (k : string) := dmem String.eqb d k.
Definition sset {V} (d : sdict V) (k : string) (v : V) := dset String.eqb d k v.
Definition spop {V} (d : sdict V) (k : string) := dpop String.eqb d k.
Definition sget {V} (d : sdict V) (k : string) := dget String.eqb d k.
