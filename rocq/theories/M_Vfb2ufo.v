(** Model of the tool vfb2ufo, from its arguments and the files to the files afterwards: cmdline.py 85-249. Reading is in
    M_Container, the export in M_Document, writing in M_Tools. *)
From Coq Require Import String QArith.
From Verif Require Import Base M_Py M_Glyph M_Container M_Table M_Tth M_Programs M_Designspace M_Builder M_Build M_Ufo M_Document M_Tools S_Build.
Local Open Scope list_scope.

(** cmdline.py 85-203: the arguments. Not here: --ttx, which the code does not look at, --silent and --verbose, which are
    about printing, and --no-normalize: normalizing writes the same UFO once more. *)
Record args := Args {
  a_input : path; a_output : option path; a_folder : option (bool * list pystr);
  a_json : bool; a_zip : bool; a_force : bool; a_minimal : bool; a_unicode : bool;
  a_base64 : bool; a_no_hints : bool; a_kerning_groups : bool; a_keep_groups : bool }.
(** what the code takes from libraries *)
Record libs := Libs {
  l_oracles : oracles; l_ops : num_ops num; l_upper : pystr -> pystr; l_asm : asm_oracle;
  l_number : Z -> Q; l_round15 : Z -> Z; l_fuel : nat }.
(** what a file has: bytes, a UFO in one of three forms (a folder, a zip file, a JSON file), or a designspace *)
Inductive form := AsFolder | AsZip | AsJson.
Inductive file_content := FBytes (b : bytes) | FUfo (f : form) (u : ufo) | FDesign (d : designspace num).
(** how the tool ends: [NotFound] is [sys.exit(1)] of 205-210, [NotBytes] the exception of opening a folder as a file *)
Inductive ending := NotFound | NotBytes | Ended (o : outcome).

(** builder.py 909-920: [ufoz] and [json] *)
Definition form_of (a : args) : form := if a_json a then AsJson else if a_zip a then AsZip else AsFolder.
(** cmdline.py 219 and 231-232 *)
Definition settings_of (L : libs) (a : args) : settings :=
  Settings (a_minimal a) (a_minimal a) (negb (a_no_hints a)) (l_ops L) (l_upper L) (l_asm L).
(** cmdline.py 233-236 *)
Definition options_of (L : libs) (a : args) : options :=
  Options (a_base64 a) (a_kerning_groups a) (negb (a_keep_groups a)) (l_number L) (l_round15 L) (l_fuel L).
(** cmdline.py 222-228 *)
Definition out_of (a : args) : path := vfb2ufo_out (a_zip a) (a_json a) (a_folder a) (a_input a) (a_output a).
(** cmdline.py 221: [{F.Encoding, F.EncodingDefault}] *)
Definition dropped_keys : list Z := [1500; 1501].

(** cmdline.py 217-221 and 229-238: what [write] gets, or the exception *)
Definition exported (L : libs) (fuel : nat) (a : args) (file : bytes) : res (list file_content * option file_content) :=
  let T := table (l_oracles L) in
  match vfb_read_bytes T fuel (new_vfb dropped_keys false (a_unicode a)) file with
  | (_, RErr e _) => Err e
  | (v, ROk _ _) =>
      match vfb_decompile T v with
      | (_, Err e) => Err e
      | (v, Ok _) =>
          rmap (fun p => (map (FUfo (form_of a)) (fst p), option_map FDesign (snd p)))
            (vfb_to_document (settings_of L a) (options_of L a) (a_json a) (out_of a) (entries_of (v_entries v)))
      end
  end.
(** cmdline.py 203-249 *)
Definition vfb2ufo (L : libs) (fuel : nat) (a : args) (fs : files file_content) : files file_content * ending :=
  match aget str_eqb (path_text (a_input a)) fs with
  | None => (fs, NotFound)
  | Some (FBytes file) =>
      let '(fs, o) := builder_write (a_json a) (a_force a) (exported L fuel a file) (out_of a) fs in (fs, Ended o)
  | Some _ => (fs, NotBytes)
  end.
