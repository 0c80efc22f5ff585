(** Specification of the glyph classes: how a class is written in the VFB. *)
From Verif Require Import Base M_Py M_Text M_Groups.

(** names of glyphs: no white space and no colon *)
Definition plain_name (g : pystr) : Prop := g <> [] /\ Forall (fun c => is_space c = false /\ c <> 58) g.
(** [spaced gs t]: the names [gs] are written in [t] with one or more spaces between them, and perhaps spaces before
    and after them *)
Inductive spaced : list pystr -> pystr -> Prop :=
| spaced_nil : forall n, spaced [] (repeat 32 n)
| spaced_last : forall n g, plain_name g -> spaced [g] (repeat 32 n ++ g)
| spaced_cons : forall n g gs t, plain_name g -> spaced gs t -> spaced (g :: gs) (repeat 32 n ++ g ++ 32 :: t).
(** [class_text t d]: [t] is the text of the class [d]; a text without a colon is none *)
Inductive class_text : pystr -> option (pystr * list pystr) -> Prop :=
| class_none : forall t, ~ In 58 t -> class_text t None
| class_some : forall name gs t, ~ In 58 name -> spaced gs t -> class_text (name ++ 58 :: t) (Some (name, gs)).
(** the first definition of a class *)
Fixpoint first_def (name : pystr) (ds : list (option (pystr * list pystr))) : option (list pystr) :=
  match ds with
  | [] => None
  | Some (n, gs) :: ds => if str_eqb name n then Some gs else first_def name ds
  | None :: ds => first_def name ds
  end.
