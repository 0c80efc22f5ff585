(** Proofs about guides in the UFO (M_Guides). *)
From Coq Require Import String QArith Qabs ZifyBool Lqa.
From Verif Require Import Base M_Py M_Text M_Glyph M_Tth M_Guides S_Guides Lib P_Glyph P_Glyph2 P_Tth.
Local Open Scope list_scope.
Local Open Scope Z_scope.

(** ** Angles *)

Lemma div_half_even_near : forall n d, 0 < d -> 2 * Z.abs (d * div_half_even n d - n) <= d.
Proof.
  intros n d H. unfold div_half_even. pose proof (Z.div_mod n d ltac:(lia)) as E.
  pose proof (Z.mod_pos_bound n d H) as B. set (q := n / d) in *. set (r := n mod d) in *.
  destruct (2 * r <? d) eqn:E1; [nia|]. destruct (d <? 2 * r) eqn:E2; [nia|]. destruct (Z.even q); nia.
Qed.

Lemma div_half_even_between : forall n d lo hi, 0 < d -> lo * d <= n <= hi * d -> lo <= div_half_even n d <= hi.
Proof.
  intros n d lo hi H B. unfold div_half_even. pose proof (Z.div_mod n d ltac:(lia)) as E.
  pose proof (Z.mod_pos_bound n d H) as R. set (q := n / d) in *. set (r := n mod d) in *.
  assert (lo <= q) by nia. assert (q <= hi) by nia.
  assert (q = hi -> r = 0) by nia.
  destruct (2 * r <? d) eqn:E1; [lia|]. destruct (d <? 2 * r) eqn:E2; [lia|]. destruct (Z.even q); lia.
Qed.

Lemma round2_near : forall x, (Qabs (round2 x - x) <= 1 # 200)%Q.
Proof.
  intros [n d]. unfold round2. cbn [Qnum Qden].
  pose proof (div_half_even_near (n * 100) (Z.pos d) ltac:(lia)) as H. set (k := div_half_even _ _) in *.
  apply Qabs_Qle_condition. unfold Qle, Qminus, Qplus, Qopp. cbn [Qnum Qden]. lia.
Qed.

Lemma round2_between : forall x lo hi, (lo # 1 <= x <= hi # 1)%Q -> (lo # 1 <= round2 x <= hi # 1)%Q.
Proof.
  intros [n d] lo hi [H1 H2]. unfold round2, Qle in *. cbn [Qnum Qden] in *.
  pose proof (div_half_even_between (n * 100) (Z.pos d) (lo * 100) (hi * 100) ltac:(lia) ltac:(lia)). lia.
Qed.

Lemma ufo_angle_ok : forall vertical a, (-(90 # 1) <= a <= 90 # 1)%Q ->
  exported_angle vertical a (ufo_angle vertical a).
Proof.
  intros vertical a H. unfold ufo_angle, exported_angle.
  set (b := if vertical then ((90 # 1) - a)%Q else a).
  assert (B : (-(90 # 1) <= b <= 180 # 1)%Q) by (destruct vertical; unfold b; lra).
  set (c := if Qle_bool (0 # 1) b then b else (b + (360 # 1))%Q).
  assert (C : (0 <= c <= 360 # 1)%Q /\ exists t : Z, (c == b + (360 * t # 1))%Q).
  { unfold c. destruct (Qle_bool (0 # 1) b) eqn:E.
    - apply Qle_bool_iff in E. split; [lra|]. exists 0. change (360 * 0 # 1)%Q with (0 # 1). lra.
    - assert (b < 0)%Q. { apply Qnot_le_lt. intros X. apply Qle_bool_iff in X. congruence. }
      split; [lra|]. exists 1. change (360 * 1 # 1)%Q with (360 # 1). lra. }
  destruct C as [C (t & T)].
  assert (E : Qle_bool c (360 # 1) = true) by (apply Qle_bool_iff; lra). rewrite E.
  split; [apply (round2_between c 0 360); exact C|].
  exists t. pose proof (round2_near c) as N. rewrite <- T. exact N.
Qed.

(** ** Colours *)

Lemma hexd_hexc : forall d, 0 <= d < 16 -> hexd (hexc d) = Some d.
Proof.
  intros d H. unfold hexd, hexc, in_range. destruct (d <? 10) eqn:E.
  - assert (X : ((48 <=? 48 + d) && (48 + d <? 58)) = true) by lia. rewrite X. f_equal. lia.
  - assert (X : ((48 <=? 87 + d) && (87 + d <? 58)) = false) by lia. rewrite X.
    assert (Y : ((97 <=? 87 + d) && (87 + d <? 103)) = true) by lia. rewrite Y. f_equal. lia.
Qed.
Lemma int_base16_two : forall k, 0 <= k <= 255 -> int_base16 [hexc (k / 16); hexc (k mod 16)] = Ok k.
Proof.
  intros k H. unfold int_base16. cbn [int16_from]. rewrite !hexd_hexc by lia. f_equal. lia.
Qed.

Lemma fraction_ok : forall k, byte_range k -> decimal4 k (fraction k).
Proof.
  intros k H. unfold byte_range in H. unfold fraction, decimal4. set (n := (20000 * k + 255) / 510).
  assert (N : 0 <= n <= 10000) by (unfold n; lia).
  assert (A : 2 * Z.abs (255 * n - 10000 * k) <= 255) by (unfold n; lia).
  clearbody n. unfold dec_pad4. set (m := n mod 10000).
  exists (n / 10000), (m / 1000 mod 10), (m / 100 mod 10), (m / 10 mod 10), (m mod 10).
  assert (M : 0 <= m < 10000) by (unfold m; lia).
  split.
  - assert (D : n / 10000 = 0 \/ n / 10000 = 1) by lia. destruct D as [-> | ->]; reflexivity.
  - split; [repeat apply Forall_cons; try apply Forall_nil; lia|].
    replace (10000 * (n / 10000) + 1000 * (m / 1000 mod 10) + 100 * (m / 100 mod 10) + 10 * (m / 10 mod 10) + m mod 10)
      with n by (unfold m in *; lia).
    exact A.
Qed.

Lemma guide_color_text : forall r g b, byte_range r -> byte_range g -> byte_range b ->
  guide_color (vfb_color r g b) =
  Some [35; hexc (r / 16); hexc (r mod 16); hexc (g / 16); hexc (g mod 16); hexc (b / 16); hexc (b mod 16)].
Proof.
  unfold byte_range. intros r g b Hr Hg Hb. unfold guide_color, vfb_color.
  assert (E : (-1 <? r + 256 * g + 65536 * b) = true) by lia. rewrite E.
  rewrite hex06_hexn by lia. cbn [hexn app]. unfold swap_color, slice_from, slice. cbn [skipn firstn Nat.sub app].
  change (py "#") with [35]. cbn [app].
  assert (H : forall a a' b b' c c' d d' e e' f f' : Z, a = a' -> b = b' -> c = c' -> d = d' -> e = e' -> f = f' ->
    Some [35; hexc a; hexc b; hexc c; hexc d; hexc e; hexc f] =
    Some [35; hexc a'; hexc b'; hexc c'; hexc d'; hexc e'; hexc f']) by (intros; subst; reflexivity).
  apply H; lia.
Qed.

Lemma ufo_color_ok : forall r g b c, byte_range r -> byte_range g -> byte_range b ->
  guide_color (vfb_color r g b) = Some c ->
  ufo_color c = Ok (fraction r ++ py "," ++ fraction g ++ py "," ++ fraction b ++ py ",1").
Proof.
  intros r g b c Hr Hg Hb E. rewrite guide_color_text in E by assumption. injection E as <-.
  unfold ufo_color, slice. cbn [skipn firstn Nat.sub]. rewrite !int_base16_two by assumption.
  reflexivity.
Qed.

(** ** Properties *)

Lemma given_snoc_yes : forall A (says : guide_prop -> A -> Prop) l p i v,
  gp_index p = i -> says p v -> given says (l ++ [p]) i (Some v).
Proof. intros. left. exists l, p, [], v. repeat split; auto. Qed.
Lemma given_snoc_no : forall A (says : guide_prop -> A -> Prop) l p i o,
  given says l i o -> (forall w, gp_index p = i -> ~ says p w) -> given says (l ++ [p]) i o.
Proof.
  intros A says l p i o [(b & q & a & v & -> & E & Sv & O & N)|[N O]] H.
  - left. exists b, q, (a ++ [p]), v. split; [now rewrite <- app_assoc|]. repeat split; auto.
    intros q' w Iq Eq. apply in_app_or in Iq. destruct Iq as [Iq|[<-|[]]]; [eauto|auto].
  - right. split; [|assumption]. intros q w Iq Eq. apply in_app_or in Iq.
    destruct Iq as [Iq|[<-|[]]]; [eauto|auto].
Qed.

Definition undecorated (u : ufo_guide) : Prop := ug_color u = None /\ ug_name u = None.
Definition same_place (u u' : ufo_guide) : Prop :=
  ug_angle u' = ug_angle u /\ ug_x u' = ug_x u /\ ug_y u' = ug_y u.

Lemma py_index_some : forall A (l : list A) i x, 0 <= i -> nth_error l (Z.to_nat i) = Some x -> py_index l i = Ok x.
Proof.
  intros A l i x H E. rewrite <- (Z2Nat.id i H). assert (L : (Z.to_nat i < List.length l)%nat) by (apply nth_error_Some; congruence).
  rewrite (py_index_nth _ _ _ x) by exact L. now rewrite (nth_error_nth _ _ x E).
Qed.
Lemma py_update_nth : forall A (l : list A) i f, 0 <= i < Z.of_nat (List.length l) ->
  exists l', py_update l i f = Ok l' /\ List.length l' = List.length l /\
    forall j, nth_error l' j = if Nat.eqb j (Z.to_nat i) then option_map f (nth_error l j) else nth_error l j.
Proof.
  intros A l i f H. destruct (nth_error l (Z.to_nat i)) as [x|] eqn:E.
  2:{ apply nth_error_None in E. lia. }
  apply nth_error_split in E. destruct E as (a & b & -> & L).
  replace i with (Z.of_nat (List.length a)) by lia. rewrite py_update_mid.
  eexists. split; [reflexivity|]. split; [rewrite !app_length; reflexivity|].
  rewrite Nat2Z.id. intros j. destruct (Nat.eqb_spec j (List.length a)) as [->|N].
  - rewrite !nth_error_app2, Nat.sub_diag by lia. reflexivity.
  - destruct (Nat.lt_ge_cases j (List.length a)) as [Lt|Ge].
    + now rewrite !nth_error_app1 by lia.
    + rewrite !nth_error_app2 by lia. destruct (j - List.length a)%nat eqn:D; [lia|reflexivity].
Qed.

Lemma res_fold_snoc : forall A B (f : A -> B -> res A) l x a,
  res_fold f a (l ++ [x]) = rthen (res_fold f a l) (fun a => f a x).
Proof.
  induction l as [|y l IH]; intros x a; cbn [app res_fold].
  - cbn [rthen]. destruct (f a x); reflexivity.
  - destruct (f a y) as [a'|]; cbn [rthen]; [apply IH|reflexivity].
Qed.

Lemma prop_color_ok : forall p, guide_prop_ok p ->
  (gp_color p = None /\ forall w, ~ says_color p w) \/
  (exists c s, gp_color p = Some c /\ ufo_color c = Ok s /\ says_color p s).
Proof.
  intros p [_ [N|(r & g & b & Hr & Hg & Hb & E)]].
  - left. split; [assumption|]. intros w (r & g & b & Hr & Hg & Hb & E & _).
    rewrite guide_color_text in E by assumption. congruence.
  - right. pose proof (guide_color_text r g b Hr Hg Hb) as G. rewrite G in E.
    eexists. eexists. split; [exact E|]. split; [apply (ufo_color_ok r g b); assumption|].
    exists r, g, b. rewrite E, G. repeat (split; [assumption || reflexivity|]).
    exists (fraction r), (fraction g), (fraction b). repeat (split; [now apply fraction_ok|]). reflexivity.
Qed.

Lemma apply_properties_ok : forall gs, Forall undecorated gs -> forall props, Forall guide_prop_ok props ->
  exists gs', res_fold apply_property gs props = Ok gs' /\ List.length gs' = List.length gs /\
    forall i u', nth_error gs' i = Some u' ->
      (exists u, nth_error gs i = Some u /\ same_place u u') /\
      given says_color props (Z.of_nat i + 1) (ug_color u') /\
      given says_name props (Z.of_nat i + 1) (ug_name u').
Proof.
  intros gs U props. induction props as [|p props IH] using rev_ind; intros F.
  - exists gs. split; [reflexivity|]. split; [reflexivity|]. intros i u E. split.
    + exists u. split; [assumption|]. repeat split.
    + rewrite Forall_forall in U. apply nth_error_In in E. destruct (U _ E) as [-> ->].
      split; right; (split; [intros q w []|reflexivity]).
  - apply Forall_app in F. destruct F as [F Fp]. inversion Fp as [|? ? P _]; subst.
    destruct (IH F) as (g1 & E1 & L1 & H1). rewrite res_fold_snoc, E1. cbn [rthen].
    unfold apply_property. pose proof P as [Hi _].
    destruct (Z.of_nat (List.length g1) <=? gp_index p - 1) eqn:Big.
    + exists g1. split; [reflexivity|]. split; [assumption|]. intros i u E. destruct (H1 i u E) as (A & B & C).
      assert (Li : (i < List.length g1)%nat) by (apply nth_error_Some; congruence).
      split; [assumption|]. split; apply given_snoc_no; auto; intros w Eq; lia.
    + destruct (nth_error g1 (Z.to_nat (gp_index p - 1))) as [x|] eqn:Ex.
      2:{ apply nth_error_None in Ex. lia. }
      rewrite (py_index_some _ _ _ x) by (lia || assumption). cbn [rthen].
      assert (C : exists c, (match gp_color p with Some c => rmap Some (ufo_color c) | None => Ok None end) = Ok c /\
                 match c with Some s => says_color p s | None => forall w, ~ says_color p w end).
      { destruct (prop_color_ok p P) as [[-> N]|(c & s & -> & Es & S)].
        - exists None. now split.
        - exists (Some s). rewrite Es. now split. }
      destruct C as (c & -> & Hc). cbn [rthen].
      destruct (py_update_nth _ g1 (gp_index p - 1) (fun g => set_name (gp_name p) (set_color c g)) ltac:(lia))
        as (g2 & E2 & L2 & H2).
      exists g2. split; [exact E2|]. split; [congruence|]. intros i u E. rewrite H2 in E.
      destruct (Nat.eqb_spec i (Z.to_nat (gp_index p - 1))) as [Ei|Ni].
      * destruct (nth_error g1 i) as [u1|] eqn:Eu; [|discriminate]. cbn [option_map] in E. injection E as <-.
        destruct (H1 i u1 Eu) as ((u0 & Eu0 & A) & B & C). split.
        { exists u0. split; [assumption|]. unfold same_place in *.
          destruct c, (gp_name p); cbn; assumption. }
        assert (Hp : gp_index p = Z.of_nat i + 1) by lia. split.
        { assert (Ec : ug_color (set_name (gp_name p) (set_color c u1)) = match c with Some s => Some s | None => ug_color u1 end)
            by (destruct c, (gp_name p); reflexivity).
          rewrite Ec. destruct c as [s|]; [now apply given_snoc_yes|]. apply given_snoc_no; auto. }
        { assert (En : ug_name (set_name (gp_name p) (set_color c u1)) = match gp_name p with Some s => Some s | None => ug_name u1 end)
            by (destruct c, (gp_name p); reflexivity).
          rewrite En. destruct (gp_name p) as [s|] eqn:Nm; [now apply given_snoc_yes|].
          apply given_snoc_no; auto. intros w _ X. unfold says_name in X. congruence. }
      * destruct (H1 i u E) as (A & B & C). split; [assumption|].
        split; apply given_snoc_no; auto; intros w Eq; lia.
Qed.

Lemma master_guides_ok : forall value vertical m gs,
  Forall (fun g => exists mg, nth_error g m = Some mg /\ (-(90 # 1) <= value (gm_angle mg) <= 90 # 1)%Q) gs ->
  exists us, res_map (get_master_guide value vertical (Z.of_nat m)) gs = Ok us /\
    Forall2 (placed value vertical m) gs us /\ Forall undecorated us.
Proof.
  intros value vertical m gs. induction gs as [|g gs IH]; intros F.
  - exists []. repeat split; constructor.
  - inversion F as [|? ? (mg & Em & A) F']; subst. destruct (IH F') as (us & E & P & U).
    assert (Lm : (m < List.length g)%nat) by (apply nth_error_Some; congruence).
    cbn [res_map]. unfold get_master_guide at 1. rewrite (py_index_some _ _ _ mg) by (lia || (rewrite Nat2Z.id; assumption)).
    cbn [rmap rthen]. rewrite E. cbn [rmap].
    eexists. split; [reflexivity|]. split; constructor; try assumption.
    + exists mg. split; [assumption|]. destruct vertical; cbn; repeat (split; [reflexivity|]);
        now apply ufo_angle_ok.
    + destruct vertical; split; reflexivity.
Qed.

Lemma Forall2_moved : forall value vertical m gs us us',
  Forall2 (placed value vertical m) gs us -> List.length us' = List.length us ->
  (forall i u', nth_error us' i = Some u' -> exists u, nth_error us i = Some u /\ same_place u u') ->
  Forall2 (placed value vertical m) gs us'.
Proof.
  intros value vertical m gs us us' F. revert us'. induction F as [|g u gs us P F IH]; intros us' L H.
  - destruct us'; [constructor|discriminate].
  - destruct us' as [|u' us']; [discriminate|]. constructor.
    + destruct (H 0%nat u' eq_refl) as (u0 & E & A & B & C). cbn in E. injection E as <-.
      destruct P as (mg & E & X & Y & Z). exists mg. rewrite A, B, C. auto.
    + apply IH; [now injection L|]. intros i w E. exact (H (S i) w E).
Qed.
