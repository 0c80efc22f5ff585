(** Specification for C109: the angles of guides and the slopes that are stored for them, with real numbers. *)
From Coq Require Import Reals.
From Verif Require Import Base M_Py M_Glyph S_Entry S_Glyph.
Local Open Scope R_scope.

(** [x] is [y] with a relative error of at most two units in the last place of a double *)
Definition near (x y : R) : Prop := Rabs (x - y) <= Rabs y / 2251799813685248.
(** [n] is [p] without its fraction: Python's [int(p)] *)
Definition int_part (p : R) (n : Z) : Prop :=
  (0 <= p -> IZR n <= p < IZR n + 1) /\ (p <= 0 -> IZR n - 1 < p <= IZR n).
(** [angle] is [degrees(atan2(s, 10000))] as a computer has it: two steps, each with an error *)
Definition reads_as (s : Z) (angle : R) : Prop :=
  exists a, near a (atan (IZR s / 10000)) /\ near angle (a * (180 / PI)).
(** [s] is [int(tan(radians(angle)) * 10000)] as a computer has it: three steps, each with an error *)
Definition written_as (angle : R) (s : Z) : Prop :=
  exists r t p, near r (angle * (PI / 180)) /\ near t (tan r) /\ near p (t * 10000) /\ int_part p s.
(** The functions of Python's math module are accurate; [val] is the number that a double stands for. Nothing is
    asked of angles of 90 degrees and more. *)
Definition accurate (val : Z -> R) (o : oracles) : Prop :=
  (forall s, int32 s -> reads_as s (val (o_angle o s))) /\
  (forall d, Rabs (val d) < 90 -> exists s, o_slope o d = Ok s /\ written_as (val d) s).
(** [m] is [n], or [n] moved by one towards zero *)
Definition towards_zero (n m : Z) : Prop := m = n \/ m = (n - Z.sgn n)%Z.
(** a guide of a master is in the same place; its slope is the same or one nearer to zero, and its angle at most
    0.006 degrees away *)
Definition guide_moved (val : Z -> R) (o : oracles) (g h : guide_master) : Prop :=
  gm_pos h = gm_pos g /\
  (exists s t, int32 s /\ towards_zero s t /\ gm_angle g = o_angle o s /\ gm_angle h = o_angle o t) /\
  Rabs (val (gm_angle h) - val (gm_angle g)) <= 6 / 1000.
Definition guides_moved (val : Z -> R) (o : oracles) (d e : guides) : Prop :=
  Forall2 (Forall2 (guide_moved val o)) (gs_h d) (gs_h e) /\ Forall2 (Forall2 (guide_moved val o)) (gs_v d) (gs_v e).
(** [S_Glyph.regular] without what it says about the slopes of the guides *)
Definition complete (o : oracles) (vfb_masters : option Z) (n : Z) (g : glyph) : Prop :=
  (g_num_masters g = Some n /\ master_count n /\
  2 * stored_values n (or_nil (g_nodes g)) < 2 ^ 31 /\
  on_some (has_masters n) (g_metrics g) /\
  on_some (fun h => Forall (has_masters n) (mh_h h) /\ Forall (has_masters n) (mh_v h)) (g_hints g) /\
  on_some (fun gs => vfb_masters = Some n /\ or_empty (g_name g) <> [] /\ Forall (has_masters n) (gs_h gs ++ gs_v gs)) (g_guides g) /\
  Forall (fun c => has_masters n (co_x c)) (or_nil (g_components g)) /\
  Forall (fun kv => has_masters n (snd kv)) (or_nil (g_kerning g)) /\
  on_some (fun i => im_metrics i <> None /\ im_contours i <> None /\ wf_program o (or_nil (im_instructions i))) (g_imported g) /\
  Z.of_nat (length (or_nil (g_tth g))) < 2 ^ 26)%Z.
Definition with_guides (g : glyph) (gs : option guides) : glyph :=
  Glyph (g_name g) (g_num_masters g) (g_nodes g) (g_metrics g) (g_hints g) gs (g_components g) (g_kerning g) (g_imported g) (g_tth g).
