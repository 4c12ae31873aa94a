(** Model of download_sxs_waveform, /repo/gw_eccentricity/load_data.py 746-824. *)
From Coq Require Import DecimalString Ascii.
From Verif Require Import Base UtilsModel MeasureModel LoadModel.
Open Scope string_scope.

(** str(n) of an int, as the f-strings of load_data.py 800 and 814-823 write it *)
Definition str_of_int (n : Z) : string := NilZero.string_of_int (Z.to_int n).
(** sxs_id.replace(":", "_"), load_data.py 798 *)
Fixpoint replace_colon (s : string) : string :=
  match s with EmptyString => "" | String c r => String (if Ascii.eqb c ":" then "_" else c)%char (replace_colon r) end.
Definition starts_slash (s : string) : bool := match s with String c _ => Ascii.eqb c "/"%char | _ => false end.
Fixpoint ends_slash (s : string) : bool :=
  match s with EmptyString => false | String c EmptyString => Ascii.eqb c "/"%char | String _ r => ends_slash r end.
(** os.path.join of two parts (posixpath), as used in load_data.py 799-800 and 820 *)
Definition path_join (a b : string) : string :=
  if starts_slash b then b
  else match a with EmptyString => b | _ => if ends_slash a then a ++ b else a ++ "/" ++ b end.

(** What is on the disk: files with their content, and directories.  Simplified: the parents that os.makedirs makes on the way are
    not recorded, and links and permissions are left out. *)
Record disk := { d_files : list (string * string); d_dirs : list string }.
Definition content (k : disk) (p : string) : option string := dlookup String.eqb (d_files k) p.
(** os.path.exists, load_data.py 821 *)
Definition path_exists (k : disk) (p : string) : bool :=
  match content k p with Some _ => true | None => existsb (String.eqb p) (d_dirs k) end.

(** The outside: os.path.expanduser; the catalogue of a tag (sxs.Simulations.load), which gives for each simulation its dictionary
    "files", None if there is no such key, that maps names to dictionaries with the key "link"; and what a link gives. *)
Record server := {
  sv_expand : string -> string;
  sv_catalog : string -> res (sdict (option (sdict (sdict string))));
  sv_fetch : string -> res string
}.

(** What the call does to the disk, in order.  A transfer is taken to be one step. *)
Inductive event := MadeDir (p : string) | Fetched (url p c : string).
Definition apply_event (k : disk) (e : event) : disk :=
  match e with
  | MadeDir p => {| d_files := d_files k; d_dirs := p :: d_dirs k |}
  | Fetched _ p c => {| d_files := (p, c) :: d_files k; d_dirs := d_dirs k |}
  end.
Definition after (k : disk) (l : list event) : disk := fold_left apply_event l k.

Section Download.
  Variable V : server.
  (** load_data.py 819-823, the loop over the file names *)
  Fixpoint fetch_all (dir lev : string) (files : sdict (sdict string)) (names : list string) (k : disk) : list event * res unit :=
    match names with
    | [] => ([], Ok tt)
    | n :: r =>
        let dest := path_join dir n in
        if path_exists k dest then fetch_all dir lev files r k
        else match (do f <- sget files ("Lev" ++ lev ++ ":" ++ n); do u <- sget f "link"; do c <- sv_fetch V u; Ok (u, c)) with
             | Err e => ([], Err e)
             | Ok (u, c) => let e := Fetched u dest c in let x := fetch_all dir lev files r (apply_event k e) in (e :: fst x, snd x)
             end
    end.
  (** load_data.py 797-800 *)
  Definition target_dir (id : string) (lev : Z) (data_dir : string) : string :=
    path_join (path_join (sv_expand V data_dir) (replace_colon id)) ("Lev" ++ str_of_int lev).
  (** load_data.py 812-817 *)
  Definition sxs_filenames (order : Z) : list string :=
    ["Strain_N" ++ str_of_int order ++ ".h5"; "Strain_N" ++ str_of_int order ++ ".json"; "metadata.json"; "Horizons.h5"].
  (** load_data.py 746-824.  os.makedirs raises FileExistsError, here GenericException, if the directory is a file. *)
  Definition download_sxs_waveform (id : string) (lev : Z) (data_dir : string) (order : Z) (tag : string) (k : disk) : list event * res string :=
    let dir := target_dir id lev data_dir in
    match content k dir with
    | Some _ => ([], Err GenericException)
    | None =>
        let made := MadeDir dir in
        match (do cat <- sv_catalog V tag; match slookup cat id with None => Err ValueError | Some s => Ok (match s with None => [] | Some f => f end) end) with
        | Err e => ([made], Err e)
        | Ok files => let x := fetch_all dir (str_of_int lev) files (sxs_filenames order) (apply_event k made) in
                      (made :: fst x, bind (snd x) (fun _ => Ok dir))
        end
    end.
End Download.
