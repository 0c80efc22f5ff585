(** Specification of guides in the UFO (C67). *)
From Coq Require Import String QArith Qabs.
From Verif Require Import Base M_Py M_Glyph M_Guides.
Local Open Scope list_scope.
Local Open Scope Z_scope.

(** "[r] is the direction of the guide, between 0 and 360 degrees, up to 0.005 degrees". Angles of the
    VFB are measured from the axis of the guide, clockwise from the vertical one. *)
Definition exported_angle (vertical : bool) (a r : Q) : Prop :=
  (0 <= r <= 360 # 1)%Q /\
  exists turns : Z,
    (Qabs (r - ((if vertical then (90 # 1) - a else a) + (360 * turns # 1))) <= 1 # 200)%Q.

(** "[u] is the guide [g] of the VFB in master [m]" *)
Definition placed (value : Z -> Q) (vertical : bool) (m : nat) (g : list guide_master)
  (u : ufo_guide) : Prop :=
  exists mg, nth_error g m = Some mg /\
    ug_x u = (if vertical then gm_pos mg else 0) /\
    ug_y u = (if vertical then 0 else gm_pos mg) /\
    exported_angle vertical (value (gm_angle mg)) (ug_angle u).

(** "[o] is what the last of the properties for guide [i] (counted from 1) that tells it says" *)
Definition given {A} (says : guide_prop -> A -> Prop) (props : list guide_prop) (i : Z)
  (o : option A) : Prop :=
  (exists before p after v, props = before ++ p :: after /\ gp_index p = i /\ says p v /\ o = Some v /\
     forall q w, In q after -> gp_index q = i -> ~ says q w) \/
  ((forall q w, In q props -> gp_index q = i -> ~ says q w) /\ o = None).

(** a number of one digit before and four digits behind the point, nearest to [k / 255] *)
Definition decimal4 (k : Z) (s : pystr) : Prop :=
  exists d0 d1 d2 d3 d4, s = [48 + d0; 46; 48 + d1; 48 + d2; 48 + d3; 48 + d4] /\
    Forall (fun d => 0 <= d <= 9) [d0; d1; d2; d3; d4] /\
    2 * Z.abs (255 * (10000 * d0 + 1000 * d1 + 100 * d2 + 10 * d3 + d4) - 10000 * k) <= 255.

(** the colour of red, green and blue as the VFB stores it, and as the UFO does *)
Definition vfb_color (r g b : Z) : Z := r + 256 * g + 65536 * b.
Definition color_text (r g b : Z) (s : pystr) : Prop :=
  exists tr tg tb, decimal4 r tr /\ decimal4 g tg /\ decimal4 b tb /\
    s = tr ++ py "," ++ tg ++ py "," ++ tb ++ py ",1".
Definition byte_range (k : Z) : Prop := 0 <= k <= 255.

(** a property as it is read from a VFB, with a colour of three bytes *)
Definition guide_prop_ok (p : guide_prop) : Prop :=
  1 <= gp_index p /\
  (gp_color p = None \/ exists r g b, byte_range r /\ byte_range g /\ byte_range b /\
     gp_color p = guide_color (vfb_color r g b)).
Definition says_name (p : guide_prop) (n : pystr) : Prop := gp_name p = Some n.
Definition says_color (p : guide_prop) (s : pystr) : Prop :=
  exists r g b, byte_range r /\ byte_range g /\ byte_range b /\
    gp_color p = guide_color (vfb_color r g b) /\ color_text r g b s.
