(** Specification vocabulary of C103: what a program that assembles fonts has said. *)
From Coq Require Import List.
From Verif Require Import Base M_Container M_Assemble.
Local Open Scope list_scope.

Section Said.
  Context {D : Type}.
  (** the fonts and entries that were made, in order *)
  Definition fonts_made (ops : list (op D)) : nat :=
    List.length (filter (fun o => match o with ONew => true | _ => false end) ops).
  Definition entries_made (ops : list (op D)) : list (nat * Z * edata D) :=
    flat_map (fun o => match o with OEntry f i d => [(f, i, d)] | _ => [] end) ops.
  (** a program can only use what it has made *)
  Definition uses_made (before : list (op D)) (o : op D) : Prop :=
    match o with
    | ONew => True
    | OEntry f _ _ | OHeader f _ | OMasters f _ => (f < fonts_made before)%nat
    | OAdd f e => (f < fonts_made before)%nat /\ (e < List.length (entries_made before))%nat
    | OData e _ => (e < List.length (entries_made before))%nat
    end.
  Definition program (ops : list (op D)) : Prop :=
    forall before o after, ops = before ++ o :: after -> uses_made before o.

  (** the last time something was said, or a default *)
  Definition last_said {A} (says : op D -> option A) (default : A) (ops : list (op D)) : A :=
    last (flat_map (fun o => match says o with Some a => [a] | None => [] end) ops) default.
  Definition if_same {A} (k k' : nat) (a : A) : option A := if Nat.eqb k k' then Some a else None.

  (** the entries of a font, in the order of the calls of add_entry *)
  Definition added (k : nat) (ops : list (op D)) : list nat :=
    flat_map (fun o => match o with OAdd f e => if Nat.eqb k f then [e] else [] | _ => [] end) ops.
  Definition header_said (k : nat) (ops : list (op D)) : hdata :=
    last_said (fun o => match o with OHeader f h => if_same k f h | _ => None end) HNone ops.
  Definition masters_said (k : nat) (ops : list (op D)) : Z :=
    last_said (fun o => match o with OMasters f n => if_same k f n | _ => None end) 0 ops.
  (** the id, the data and the parent of entry [e] *)
  Definition id_said (e : nat) (ops : list (op D)) : option Z :=
    option_map (fun x => snd (fst x)) (nth_error (entries_made ops) e).
  Definition data_said (e : nat) (ops : list (op D)) : edata D :=
    last_said (fun o => match o with OData e' d => if_same e e' d | _ => None end)
      (match nth_error (entries_made ops) e with Some x => snd x | None => NoData end) ops.
  Definition parent_said (e : nat) (ops : list (op D)) : nat :=
    last_said (fun o => match o with OAdd f e' => if_same e e' f | _ => None end)
      (match nth_error (entries_made ops) e with Some x => fst (fst x) | None => O end) ops.

  (** the bytes [d] are what has to be written of entry [e]: its data, or what its compiler makes of it for a font
      with the masters of the parent *)
  Definition to_write (T : codecs D) (ops : list (op D)) (e : nat) (p : Z * bytes) : Prop :=
    id_said e ops = Some (fst p) /\
    match data_said e ops with
    | Raw d => snd p = d
    | Dec x => exists comp, cd_compile T (fst p) = Some comp /\
                 comp (mkCtx (masters_said (parent_said e ops) ops) 0 0 MacOS) x = Ok (snd p)
    | NoData => cd_compile T (fst p) = None /\ snd p = []
    end.
End Said.
