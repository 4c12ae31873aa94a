(** Specification of C89. *)
From Coq Require Import Ascii.
From Verif Require Import Base UtilsModel MeasureModel LoadModel LoadSpec DownloadModel.
Open Scope string_scope.

Definition present (k : disk) (p : string) : Prop := content k p <> None \/ In p (d_dirs k).
(** the files a download is to leave in its directory *)
Definition wanted_files (order : Z) (n : string) : Prop :=
  n = "Strain_N" ++ str_of_int order ++ ".h5" \/ n = "Strain_N" ++ str_of_int order ++ ".json" \/ n = "metadata.json" \/ n = "Horizons.h5".
(** what the catalogue of this tag and the server offer for one file of this simulation *)
Definition offered (V : server) (tag id : string) (lev : Z) (n c : string) : Prop :=
  exists cat files entry url, sv_catalog V tag = Ok cat /\ slookup cat id = Some (Some files) /\ slookup files ("Lev" ++ str_of_int lev ++ ":" ++ n) = Some entry /\
    slookup entry "link" = Some url /\ sv_fetch V url = Ok c.
Definition fetches (l : list event) : list string := flat_map (fun e => match e with Fetched _ p _ => [p] | MadeDir _ => [] end) l.
Definition same_content (k k' : disk) : Prop := forall p, content k p = content k' p.
(** V' offers nothing else than V, but may fail where V does not *)
Definition flaky (V V' : server) : Prop :=
  (forall d, sv_expand V' d = sv_expand V d) /\ (forall tag c, sv_catalog V' tag = Ok c -> sv_catalog V tag = Ok c) /\
  (forall u c, sv_fetch V' u = Ok c -> sv_fetch V u = Ok c).
(** the disk after any number of calls that failed because the network did, or were interrupted between two steps *)
Inductive attempts (V : server) (id : string) (lev : Z) (dir : string) (order : Z) (tag : string) : disk -> disk -> Prop :=
| none k : attempts V id lev dir order tag k k
| attempt k V' n k' : flaky V V' -> attempts V id lev dir order tag (after k (firstn n (fst (download_sxs_waveform V' id lev dir order tag k)))) k' ->
    attempts V id lev dir order tag k k'.
(** a loader that reads this directory of the disk *)
Definition reads (S : sources) (k : disk) (dir : string) (order : Z) : Prop :=
  (so_dir S dir = true <-> present k dir) /\
  (so_exists S dir (FStrainH5 (Some (ANum (inject_Z order)))) = true <-> present k (dir ++ "/" ++ "Strain_N" ++ str_of_int order ++ ".h5")) /\
  (so_exists S dir (FStrainJson (Some (ANum (inject_Z order)))) = true <-> present k (dir ++ "/" ++ "Strain_N" ++ str_of_int order ++ ".json")) /\
  (so_exists S dir FMetaJson = true <-> present k (dir ++ "/metadata.json")) /\
  (so_exists S dir FHorizons = true <-> present k (dir ++ "/Horizons.h5")).
(** id' is id with "_" for ":" *)
Definition underscored (id id' : string) : Prop :=
  forall i, String.get i id' = match String.get i id with Some c => Some (if Ascii.eqb c ":" then "_" else c)%char | None => None end.
Definition ends_with_slash (s : string) : Prop := exists r, s = r ++ "/".
Definition starts_with_slash (s : string) : Prop := exists r, s = "/" ++ r.
