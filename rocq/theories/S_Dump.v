(** Specification of what a JSON text says of a Python value. *)
From Coq Require Import String.
From Verif Require Import Base M_Py M_Glyph M_Container M_Table M_Json S_Json.
Local Open Scope list_scope.

Section shown.
  Variable number : fval -> option pystr.
  (** the JSON value of a Python value; a float without a text is null *)
  Fixpoint shown (v : pyval) : js :=
    match v with
    | PNone => JsNull
    | PBool b => JsBool b
    | PInt n => JsInt n
    | PFloat x => match number x with Some t => JsNum t | None => JsNull end
    | PStr s => JsStr s
    | PList l => JsList (map shown l)
    | PDict d => JsDict (map (fun p => (fst p, shown (snd p))) d)
    end.
  (** all floats in it have a text *)
  Fixpoint finite (v : pyval) : bool :=
    match v with
    | PFloat x => match number x with Some _ => true | None => false end
    | PList l => forallb finite l
    | PDict d => forallb (fun p => finite (snd p)) d
    | _ => true
    end.
  (** What is asked of the texts of floats: that they are numbers of JSON that are not integers ("1.0", "1e16"),
      and that no two floats of a kind have the same. This is so of the shortest digits that give the float back,
      which is what orjson writes. *)
  Definition numbers_ok : Prop :=
    (forall x t, number x = Some t -> is_number t = true /\ is_int t = false) /\
    (forall a b t, number (Bits a) = Some t -> number (Bits b) = Some t -> a = b) /\
    (forall a b t, number (Num a) = Some t -> number (Num b) = Some t -> a = b).
End shown.

(** "the entry has an id and data, which are bytes or what the parser of the id made of some bytes" *)
Definition has_data (o : oracles) (e : entry value) : Prop :=
  exists i, e_id e = Some i /\
    match e_data e with
    | Raw b => bytes_ok b
    | Dec d => exists c b, cd_parse (table o) i c b = Ok d
    | NoData => False
    end.
