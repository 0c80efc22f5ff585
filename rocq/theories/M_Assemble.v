(** Model of fonts that are assembled by a program: vfb/vfb.py 70-121 (a Vfb without a path, [add_entry]),
    vfb/entry.py 28-54 (a new entry), 119-125 (its data), 181-205 (an entry is compiled for its parent, the Vfb it was
    made for or added to last), vfb/header.py 34-38 (the data of the header). Entries and fonts are objects, so an
    entry can be in the lists of two fonts. They are numbered in the order in which they are made. *)
From Coq Require Import List.
From Verif Require Import Base M_Container.
Local Open Scope list_scope.

(** A [Vfb]: header, what is known of the font, entries *)
Record font := Font { fn_header : hdata; fn_ctx : ctx; fn_entries : list nat }.
(** the fonts, and the entries with their parents *)
Record world (D : Type) := World { w_fonts : list font; w_entries : list (nat * entry D) }.
Arguments World {D}. Arguments w_fonts {D}. Arguments w_entries {D}.

(** what a program does: [f = Vfb()]; [e = VfbEntry(f, eid=i)] and [e.data = d]; [f.add_entry(e)]; [f.header.data = h];
    [f.num_masters = n]; [e.data = d]. Not modelled: the other attributes of a Vfb that compilers look at
    (the platform). *)
Inductive op (D : Type) :=
| ONew
| OEntry (font : nat) (i : Z) (d : edata D)
| OAdd (font entry : nat)
| OHeader (font : nat) (h : hdata)
| OMasters (font : nat) (n : Z)
| OData (entry : nat) (d : edata D).
Arguments ONew {D}. Arguments OEntry {D}. Arguments OAdd {D}. Arguments OHeader {D}. Arguments OMasters {D}.
Arguments OData {D}.

Fixpoint change {A} (k : nat) (f : A -> A) (l : list A) : list A :=
  match l, k with
  | [], _ => []
  | x :: l, O => f x :: l
  | x :: l, S k => x :: change k f l
  end.

Section Assemble.
  Context {D : Type} (T : codecs D).

  Definition step (w : world D) (o : op D) : world D :=
    match o with
    | ONew => World (w_fonts w ++ [Font HNone (mkCtx 0 0 0 MacOS) []]) (w_entries w)     (* vfb.py 70-112 *)
    | OEntry f i d => World (w_fonts w) (w_entries w ++ [(f, mkEntry (Some i) d None)])  (* entry.py 28-54 *)
    | OAdd f e =>                                                                        (* vfb.py 114-121 *)
        World (change f (fun x => Font (fn_header x) (fn_ctx x) (fn_entries x ++ [e])) (w_fonts w))
              (change e (fun x => (f, snd x)) (w_entries w))
    | OHeader f h => World (change f (fun x => Font h (fn_ctx x) (fn_entries x)) (w_fonts w)) (w_entries w)
    | OMasters f n =>
        World (change f (fun x => Font (fn_header x) (set_num_masters n (fn_ctx x)) (fn_entries x)) (w_fonts w))
              (w_entries w)
    | OData e d => World (w_fonts w) (change e (fun x => (fst x, set_data d (snd x))) (w_entries w))
    end.
  Definition run (ops : list (op D)) : world D := fold_left step ops (World [] []).

  (** vfb/vfb.py 147-148 and vfb/entry.py 201: each entry is compiled with what its parent knows *)
  Fixpoint compile_all (w : world D) (l : list nat) : list (entry D) * res unit :=
    match l with
    | [] => ([], Ok tt)
    | q :: l =>
        match nth_error (w_entries w) q with
        | None => ([], Err IndexError)
        | Some (p, e) =>
            match nth_error (w_fonts w) p with
            | None => ([], Err IndexError)
            | Some f =>
                let '(e', o) := entry_compile T (fn_ctx f) e in
                match o with
                | Err x => ([e'], Err x)
                | Ok _ => let '(es, o') := compile_all w l in (e' :: es, o')
                end
            end
        end
    end.
  (** vfb/vfb.py 142-148, 322-342: the first [write_bytes] of the font [k]; the bytes that reach the buffer *)
  Definition write_font (w : world D) (k : nat) : bytes * res unit :=
    match nth_error (w_fonts w) k with
    | None => ([], Err IndexError)
    | Some f =>
        match header_compile (fn_header f) with
        | Err x => ([], Err x)
        | Ok (HRaw h) =>
            let '(es, o) := compile_all w (fn_entries f) in
            match o with
            | Err x => ([], Err x)
            | Ok _ => let '(_, b, o) := write_entries es in (h ++ b, o)
            end
        | Ok _ => ([], Err AssertionError)
        end
    end.
End Assemble.
