(** Specification vocabulary for the container properties (C09-C18): what a VFB
    file is, written down from the format description and not from the code. *)
From Verif Require Import Base M_Container.

(** [n] bytes, least significant first *)
Definition le (n : nat) (v : Z) : bytes := le_enc n v.

(** An entry in a file: id and size as 16 bit numbers, or, for more than 65535
    bytes, the id with its top bit set and the size as a 32 bit number; then the
    data. *)
Definition frame (i : Z) (d : bytes) : bytes :=
  let n := Z.of_nat (length d) in
  (if n <=? 65535 then le 2 i ++ le 2 n else le 2 (i + 32768) ++ le 4 n) ++ d.

Definition framable (p : Z * bytes) : Prop :=
  0 <= fst p < 32768 /\ Z.of_nat (length (snd p)) < 2 ^ 32.

(** the 44 byte header of a FontLab 3+ file with minor version [minor] *)
Definition header44 (minor : Z) : bytes :=
  [0x1A; 0x57; 0x4C; 0x46; 0x31; 0x30; 3; minor] ++ le 4 44 ++ repeat 0 32.

Definition fl_header (minor : Z) : hdr := mkHdr 0x464C571A 0x31 0x30 3 minor.

(** a file: header and entries *)
Definition file_of (minor : Z) (l : list (Z * bytes)) : bytes :=
  header44 minor ++ flat_map (fun p => frame (fst p) (snd p)) l.

(** the list of entries ends with the only "Block File Data End" entry *)
Definition ends_once (l : list (Z * bytes)) : Prop :=
  exists l0 d, l = l0 ++ [(2, d)] /\ ~ In 2 (map fst l0).

(** an entry object that holds the bytes [d] under the id [i] and whose header,
    if it was computed before, was computed for them *)
Definition holds {D} (e : entry D) (p : Z * bytes) : Prop :=
  e_id e = Some (fst p) /\ e_data e = Raw (snd p) /\
  (forall h, e_cache e = Some h -> h ++ snd p = frame (fst p) (snd p)).

(** What a lazy read makes of the entries of a file: all stay bytes except for FL
    Version (10), Master Count (1503) and TrueType Stems (1269), which are
    decompiled and determine the context of the following entries. The size of an
    MM Kern Pair entry (1410) follows from the number of masters. *)
Inductive reads_as {D} (T : codecs D) :
  ctx -> list (Z * bytes) -> ctx -> list (edata D) -> Prop :=
| ra_nil : forall c, reads_as T c [] c []
| ra_bytes : forall c i d l c' es,
    i <> 10 -> i <> 1503 -> i <> 1269 ->
    (i = 1410 -> Z.of_nat (length d) = 8 + 2 * num_masters c) ->
    reads_as T c l c' es ->
    reads_as T c ((i, d) :: l) c' (Raw d :: es)
| ra_version : forall c d x l c' es,
    cd_parse T 10 c d = Ok x ->
    reads_as T (mkCtx (num_masters c) (ttStemsV_count c) (ttStemsH_count c)
                      (cd_platform T x)) l c' es ->
    reads_as T c ((10, d) :: l) c' (Dec x :: es)
| ra_masters : forall c d x l c' es,
    cd_parse T 1503 c d = Ok x ->
    reads_as T (mkCtx (cd_int T x) (ttStemsV_count c) (ttStemsH_count c)
                      (writer_platform c)) l c' es ->
    reads_as T c ((1503, d) :: l) c' (Dec x :: es)
| ra_stems : forall c d x l c' es,
    cd_parse T 1269 c d = Ok x ->
    reads_as T (mkCtx (num_masters c) (fst (cd_stems T x)) (snd (cd_stems T x))
                      (writer_platform c)) l c' es ->
    reads_as T c ((1269, d) :: l) c' (Dec x :: es).

(** the context of a Vfb that has not read anything yet *)
Definition ctx0 : ctx := mkCtx 0 0 0 MacOS.

(** the entry objects with the given ids and data, as reading creates them *)
Definition fresh_entries {D} (l : list (Z * bytes)) (ds : list (edata D)) : list (entry D) :=
  map (fun p => mkEntry (Some (fst (fst p))) (snd p) None) (combine l ds).

(** the compiled form of the entries that were decompiled while reading is the
    form in which they were stored *)
Definition recompiles {D} (T : codecs D) (c : ctx) (p : Z * bytes) (e : edata D) : Prop :=
  match e with
  | Dec x => exists comp, cd_compile T (fst p) = Some comp /\ comp c x = Ok (snd p)
  | _ => True
  end.

(** [drop_keys] *)
Definition not_dropped {D} (drop_keys : list Z) (e : entry D) : bool :=
  match e_id e with Some i => negb (existsb (Z.eqb i) drop_keys) | None => true end.

(** ** Histories of an entry (C14) *)
Inductive op (D : Type) :=
| OSetData (d : edata D) | OSetId (i : option Z)
| OCompile (c : ctx) | ODecompile (c : ctx) | OHeader.
Arguments OSetData {D}.
Arguments OSetId {D}.
Arguments OCompile {D}.
Arguments ODecompile {D}.
Arguments OHeader {D}.

Definition do_op {D} (T : codecs D) (e : entry D) (o : op D) : entry D :=
  match o with
  | OSetData d => set_data d e
  | OSetId i => set_id i e
  | OCompile c => fst (entry_compile T c e)
  | ODecompile c => fst (fst (entry_decompile T c e))
  | OHeader => fst (entry_header e)
  end.
