(** C41: the values of GDEF anchors that are not part of the decompiled data. *)
From Coq Require Import String ZifyBool ZifyNat.
From Verif Require Import Base M_Stream M_Helpers M_Text M_Py M_Simple M_Glyph S_Stream S_Bits S_Text S_Entry S_Glyph
  Lib P_Stream P_Helpers P_Text P_Text2 P_Loop P_Simple P_Simple2 P_Simple3 P_TrueType P_TrueType2
  Prop_Simple P_Glyph Prop_Glyph.
Local Open Scope list_scope.
Open Scope rd_scope.

(** reads the entry, and gives the values after the coordinates x and y of each anchor *)
Definition read_extra : rd (Z * Z) :=
  _ <- read_str_with_len ;; _ <- read_value ;; a <- read_value ;; _ <- read_value ;; b <- read_value ;; ret (a, b).
Definition read_extras : rd (list (Z * Z)) :=
  _ <- read_value ;;
  num_anchors <- read_value ;; extras <- rrange num_anchors read_extra ;;
  num_carets <- read_value ;; _ <- rrange num_carets read_pair ;;
  num_ot_classes <- read_value ;; _ <- rrange num_ot_classes read_value ;;
  ret extras.

Lemma wrt_extra : forall a, wf_gdef_anchor a -> wrt (compile_gdef_anchor a) read_extra (-1, -1).
Proof.
  intros a (Hn & Hx & Hy). unfold compile_gdef_anchor, read_extra. rd_unfold_ranges.
  assert (i32 (-1)) by (unfold i32; lia). 
  eapply wrt_bind; [wrt_field|]. eapply wrt_bind; [wrt_field|]. eapply wrt_bind; [wrt_field|].
  eapply wrt_bind; [wrt_field|]. eapply wrt_bind_ret; [wrt_field|]. reflexivity.
Qed.
(** Whatever the entry had there, -1 is written. *)
Theorem C41_extras : forall d, wf_gdef d -> exists bs, compile_gdef d = Ok bs /\
  run_parser read_extras bs = Ok (map (fun _ => (-1, -1)) (or_nil (gd_anchors d))).
Proof.
  intros d Hd. destruct (gdef_class_index _ (class_of_in d Hd)) as (i & E1 & Hi & E2).
  destruct Hd as (_ & Ca & Ha & Cc & Hc & Co & Ho).
  assert (W : wrt (compile_gdef d) read_extras (map (fun _ => (-1, -1)) (or_nil (gd_anchors d)))).
  { unfold compile_gdef, read_extras.
    change (match gd_class d with Some c => c | None => py "unassigned" end) with (class_of d). rewrite E1. cbn [wlet].
    eapply wrt_bind; [apply wrt_uvalue_value; lia|].
    eapply wrt_bind; [apply wrt_ucount, Ca|].
    eapply wrt_bind; [apply wrt_range; [reflexivity|]; intros a Hin; apply wrt_extra, (Forall_In _ _ _ _ Ha Hin)|].
    eapply wrt_bind; [apply wrt_ucount, Cc|].
    eapply wrt_bind; [apply (wrt_pairs _ _ eq_refl Hc)|].
    eapply wrt_bind; [apply wrt_ucount, Co|].
    eapply wrt_bind_ret; [apply (wrt_values _ _ eq_refl Ho)|]. reflexivity. }
  destruct (wrt_run _ _ _ _ W) as (bs & E & _ & R). exists bs. split; [exact E|exact R].
Qed.
(** An entry with other values there, which are lost. *)
Example C41_extras_meets : exists d bs,
  run_parser read_extras [139; 140; 139; 149; 150; 151; 152; 139; 139] = Ok [(11, 13)] /\
  run_parser parse_gdef [139; 140; 139; 149; 150; 151; 152; 139; 139] = Ok d /\ wf_gdef d /\
  compile_gdef d = Ok bs /\ run_parser read_extras bs = Ok [(-1, -1)].
Proof.
  eexists. eexists. split; [vm_compute; reflexivity|]. split; [vm_compute; reflexivity|]. split; [|split; [vm_compute; reflexivity|vm_compute; reflexivity]].
  split; [left; reflexivity|]. cbn [or_nil gd_anchors gd_carets gd_ot_classes].
  split; [reflexivity|]. split.
  - apply Forall_cons; [|apply Forall_nil].
    split; [split; [apply ascii_encodable; repeat constructor; lia|reflexivity]|cbn; unfold int32; lia].
  - split; [reflexivity|]. split; [constructor|]. split; [reflexivity|constructor].
Qed.
Print Assumptions C41_extras.
