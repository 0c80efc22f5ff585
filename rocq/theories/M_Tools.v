(** Model of the command line tools and of the files they write: value.py, json.py, cmdline.py 145-249,
    cu2qu.py 79-98, ufo/builder.py 898-932, vfb/vfb.py 123-133, vfb/entry.py 167-179, vfb/header.py 27-30,
    vfb/info.py. *)
From Coq Require Import String.
From Verif Require Import Base M_Stream M_Py M_Helpers M_Text M_Groups M_Container M_Tth M_Designspace.
Local Open Scope list_scope.

(** ** The value tool: value.py 10-61 [yuri] *)
(** 45-49. The arguments are taken after [int(value)]. The option [long] has no effect in the code. *)
Definition yuri_encode (signed : bool) (values : list Z) : res pystr :=
  rmap hexStr (wlist (write_value_gen signed) values).
(** 53-57: the printed values, and how the loop ends. Each turn takes at least one byte. *)
Fixpoint yuri_loop (fuel : nat) (signed : bool) (s : bytes) : list Z * res unit :=
  match fuel with
  | O => ([], Err Diverge)
  | S f => match read_value_gen signed s with
           | ROk v r => let '(l, o) := yuri_loop f signed r in (v :: l, o)
           | RErr EOFError _ => ([], Ok tt)
           | RErr e _ => ([], Err e)
           end
  end.
(** 51-57 *)
Definition yuri_decode (signed : bool) (args : list pystr) : list Z * res unit :=
  match deHexStr (concat args) with
  | Ok b => yuri_loop (S (List.length b)) signed b
  | Err e => ([], Err e)
  end.

(** ** The dict of a Vfb, which is written as JSON *)
(** The values of JSON that [as_dict] makes itself; [JData] is decompiled data *)
Inductive json (J : Type) := JNull | JStr (s : pystr) | JHeader (h : hdr) | JData (j : J).
Arguments JNull {J}. Arguments JStr {J}. Arguments JHeader {J}. Arguments JData {J}.
(** vfb/entry.py 167-179 [as_dict]: key, size if there is one, decompiled. [key] gives the name of an
    id; an entry without an id has the name "None" *)
Definition entry_as_dict {D J} (key : Z -> pystr) (tojson : D -> json J) (e : entry D)
  : pystr * option Z * json J :=
  let k := match e_id e with Some i => key i | None => py "None" end in
  match e_data e with
  | Raw b => (k, Some (Z.of_nat (List.length b)), JStr (hexStr b))
  | Dec d => (k, None, tojson d)
  | NoData => (k, None, JNull)
  end.
(** vfb/header.py 27-30 *)
Definition header_as_dict {J} (h : hdata) : json J :=
  match h with
  | HRaw b => JStr (hexStr b)
  | HDec h => JHeader h
  | HNone => JNull
  end.
(** vfb/vfb.py 123-133 [as_dict] *)
Definition as_dict {D J} (key : Z -> pystr) (tojson : D -> json J) (v : vfb D)
  : json J * list (pystr * option Z * json J) :=
  (header_as_dict (v_header v), map (entry_as_dict key tojson) (v_entries v)).
(** json.py 37-44 [write_vfb_json]: the content of the file afterwards. The file is opened before
    [dumps] is called. *)
Definition write_vfb_json {A} (dumps : A -> res bytes) (d : A) (old : bytes) : bytes * res unit :=
  match dumps d with
  | Ok b => (b, Ok tt)
  | Err e => ([], Err e)
  end.

(** ** Files: path to content *)
Notation files C := (list (pystr * C)).
Inductive outcome := Done | FileExists | Raised (e : exn).

(** [ufo.save(path, overwrite=overwrite)] of ufoLib2 *)
Definition save_ufo {C} (overwrite : bool) (p : path) (c : C) (fs : files C) : files C * outcome :=
  match aget str_eqb (path_text p) fs with
  | Some _ => if overwrite then (aset str_eqb (path_text p) c fs, Done) else (fs, FileExists)
  | None => (aset str_eqb (path_text p) c fs, Done)
  end.
(** builder.py 913-923, the loop; [json_dump] opens the file for writing. Normalizing rewrites the same
    UFO, and is left out. *)
Fixpoint write_ufos {C} (json overwrite : bool) (out : path) (i : Z) (ufos : list C) (fs : files C)
  : files C * outcome :=
  match ufos with
  | [] => (fs, Done)
  | u :: ufos' =>
      let p := get_master_path out i in
      if json then write_ufos json overwrite out (i + 1) ufos' (aset str_eqb (path_text p) u fs)
      else match save_ufo overwrite p u fs with
           | (fs, Done) => write_ufos json overwrite out (i + 1) ufos' fs
           | (fs, o) => (fs, o)
           end
  end.
(** builder.py 925-932 *)
Definition write_designspace {C} (overwrite : bool) (out : path) (ds : option C) (fs : files C)
  : files C * outcome :=
  match ds with
  | None => (fs, Done)
  | Some d =>
      let p := path_text (with_suffix out (py ".designspace")) in
      match aget str_eqb p fs with
      | Some _ => if overwrite then (aset str_eqb p d fs, Done) else (fs, FileExists)
      | None => (aset str_eqb p d fs, Done)
      end
  end.
(** builder.py 898-932 [write]; [built] is what [get_ufos_designspace] gives *)
Definition builder_write {C} (json overwrite : bool) (built : res (list C * option C)) (out : path) (fs : files C)
  : files C * outcome :=
  let out := out_path_of json out in
  match built with
  | Err e => (fs, Raised e)
  | Ok (ufos, ds) =>
      match write_ufos json overwrite out 0 ufos fs with
      | (fs, Done) => write_designspace overwrite out ds fs
      | (fs, o) => (fs, o)
      end
  end.

(** [Path(folder) / path.name]; the folder is given by its root and its parts *)
Definition in_folder (folder : bool * list pystr) (p : path) : path :=
  Path (fst folder) (snd folder) (p_stem p) (p_suffix p).
(** cmdline.py 222-228: where [vfb2ufo] writes. [outputpath] is an argument of the tool. *)
Definition vfb2ufo_out (zip json : bool) (folder : option (bool * list pystr)) (inputpath : path)
  (outputpath : option path) : path :=
  let suffix := if zip && negb json then py ".ufoz" else py ".ufo" in
  match folder with
  | Some f => with_suffix (in_folder f inputpath) suffix
  | None => with_suffix inputpath suffix
  end.
(** cu2qu.py 81-86: where [vfbcu2qu] writes *)
Definition vfbcu2qu_out (folder : option (bool * list pystr)) (inputpath : path) (outputpath : option path) : path :=
  match folder with
  | Some f => with_suffix (in_folder f inputpath) (py ".vfb")
  | None => with_suffix inputpath (py ".qu.vfb")
  end.
(** cu2qu.py 79-96: [written] is what [vfb.write] puts into the file. *)
Definition vfbcu2qu_save {C} (force : bool) (out : path) (written : C) (fs : files C) : files C * outcome :=
  match aget str_eqb (path_text out) fs with
  | Some _ => if force then (aset str_eqb (path_text out) written fs, Done) else (fs, FileExists)
  | None => (aset str_eqb (path_text out) written fs, Done)
  end.
(** json.py 28-34: where [vfb2json] writes *)
Definition vfb2json_out (folder : option (bool * list pystr)) (inputpath : path) : path :=
  match folder with
  | Some f => with_suffix (in_folder f inputpath) (py ".vfb.json")
  | None => with_suffix inputpath (py ".vfb.json")
  end.

(** ** vfb/info.py *)
Definition F_upm : Z := 1135.
Section Upm.
  Context {D : Type} (T : codecs D).
  (** 11-20, the body of [unitsPerEm]: the entries afterwards and the value. Entries are told by their
      key, which belongs to one id only (C60). *)
  Fixpoint find_upm (c : ctx) (es : list (entry D)) : list (entry D) * res Z :=
    match es with
    | [] => ([], Ok 0)
    | e :: es' =>
        match e_id e with
        | Some i =>
            if i =? F_upm then
              match entry_decompile T c e with
              | (e', _, Err x) => (e' :: es', Err x)
              | (e', _, Ok _) => match e_data e' with
                                 | Dec d => (e' :: es', Ok (cd_int T d))
                                 | _ => (e' :: es', Ok 0)
                                 end
              end
            else let '(es'', r) := find_upm c es' in (e :: es'', r)
        | None => let '(es'', r) := find_upm c es' in (e :: es'', r)
        end
    end.
  (** 11 [cached_property]; the info object, and with it the cache, stays when the Vfb reads again *)
  Definition unitsPerEm (cache : option Z) (v : vfb D) : option Z * vfb D * res Z :=
    match cache with
    | Some u => (cache, v, Ok u)
    | None => let '(es, r) := find_upm (v_ctx v) (v_entries v) in
              (match r with Ok u => Some u | Err _ => None end, with_entries es v, r)
    end.
End Upm.
