(** Model of the choice of the text encoding: vfb/entry.py 131-149, parsers/base.py 31-38 and 177-184, 
    compilers/base.py 24-32. Which encoding a Vfb asks for is [v_encoding] of M_Container.v. *)
From Coq Require Import String.
From Verif Require Import Base M_Text M_Container.
Local Open Scope list_scope.

(** the attribute [encoding] of the parser classes, by the name of the class; there is none at first *)
Definition class_encodings := list (pystr * encoding).
(** vfb/entry.py 147-149: setting the id of an entry sets the attribute of the class *)
Definition set_class_encoding (enc : encoding) (cls : pystr) (a : class_encodings) : class_encodings :=
  aset str_eqb cls enc a.
(** an instance: its class, and its own attribute *)
Record instance := Instance { in_class : pystr; in_encoding : option encoding }.
(** parsers/base.py 182-184 (and 36-38) [__init__]: the attribute of the new instance *)
Definition new_instance (cls : pystr) : instance := Instance cls (Some Cp1252).
(** [self.encoding]: the attribute of the instance, else that of its class *)
Definition get_encoding (a : class_encodings) (i : instance) : option encoding :=
  match in_encoding i with Some e => Some e | None => aget str_eqb (in_class i) a end.
