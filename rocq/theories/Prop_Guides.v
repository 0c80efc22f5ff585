(** C67: guides in the UFO. *)
From Coq Require Import String QArith Qabs ZifyBool.
From Verif Require Import Base M_Py M_Text M_Glyph M_Tth M_Guides S_Guides Lib P_Glyph P_Tth P_Guides.
Local Open Scope list_scope.
Local Open Scope Z_scope.

(** For all guides, properties and masters: the guides of a master UFO are the guides of the VFB, one
    each, horizontal ones first, in their order, at the position and with the direction they have in
    that master; each has the colour and the name that its properties give it, and no other. *)
Theorem C67_guides : forall value d props m,
  Forall (fun g => exists mg, nth_error g m = Some mg /\ (-(90 # 1) <= value (gm_angle mg) <= 90 # 1)%Q)
         (gs_h d ++ gs_v d) ->
  Forall guide_prop_ok (gps_h props ++ gps_v props) ->
  exists h v, extract_guides value d props (Z.of_nat m) = Ok (h ++ v) /\
    Forall2 (placed value false m) (gs_h d) h /\ Forall2 (placed value true m) (gs_v d) v /\
    (forall i u, nth_error h i = Some u ->
       given says_color (gps_h props) (Z.of_nat i + 1) (ug_color u) /\
       given says_name (gps_h props) (Z.of_nat i + 1) (ug_name u)) /\
    (forall i u, nth_error v i = Some u ->
       given says_color (gps_v props) (Z.of_nat i + 1) (ug_color u) /\
       given says_name (gps_v props) (Z.of_nat i + 1) (ug_name u)).
Proof.
  intros value d props m F P. apply Forall_app in F. destruct F as [Fh Fv].
  apply Forall_app in P. destruct P as [Ph Pv].
  destruct (master_guides_ok value false m (gs_h d) Fh) as (h0 & Eh & Gh & Uh).
  destruct (master_guides_ok value true m (gs_v d) Fv) as (v0 & Ev & Gv & Uv).
  destruct (apply_properties_ok h0 Uh (gps_h props) Ph) as (h & Ah & Lh & Hh).
  destruct (apply_properties_ok v0 Uv (gps_v props) Pv) as (v & Av & Lv & Hv).
  exists h, v. split.
  - unfold extract_guides, get_master_guides. rewrite Eh. cbn [rthen]. rewrite Ev. cbn [rmap rthen].
    unfold apply_guide_properties. cbn [fst snd]. rewrite Ah. cbn [rthen]. rewrite Av. reflexivity.
  - split; [eapply Forall2_moved; [exact Gh|exact Lh|]; intros i u E; apply (Hh i u E)|].
    split; [eapply Forall2_moved; [exact Gv|exact Lv|]; intros i u E; apply (Hv i u E)|].
    split; intros i u E; [apply (Hh i u E)|apply (Hv i u E)].
Qed.

(** A guide that is missing in the master makes the export fail. *)
Theorem C67_missing : forall value d props m g, In g (gs_h d ++ gs_v d) -> (List.length g <= m)%nat ->
  extract_guides value d props (Z.of_nat m) = Err IndexError.
Proof.
  intros value d props m g I L.
  assert (N : (Z.of_nat m <? 0) = false) by lia.
  assert (B : forall vertical g, (exists u, get_master_guide value vertical (Z.of_nat m) g = Ok u) \/
                                 get_master_guide value vertical (Z.of_nat m) g = Err IndexError).
  { intros vertical g'. unfold get_master_guide, py_index. rewrite N.
    destruct (_ || _); [now right|]. destruct (nth_error _ _); [left; eexists; reflexivity|now right]. }
  assert (X : forall vertical gs, (exists us, res_map (get_master_guide value vertical (Z.of_nat m)) gs = Ok us) \/
                                  res_map (get_master_guide value vertical (Z.of_nat m)) gs = Err IndexError).
  { intros vertical gs. induction gs as [|x gs IH]; [left; eexists; reflexivity|]. cbn [res_map].
    destruct (B vertical x) as [(u & ->)| ->]; [|now right]. cbn [rthen].
    destruct IH as [(us & ->)| ->]; [left; eexists; reflexivity|now right]. }
  assert (Y : forall vertical gs, In g gs -> res_map (get_master_guide value vertical (Z.of_nat m)) gs = Err IndexError).
  { intros vertical gs. induction gs as [|x gs IH]; intros Ig; [destruct Ig|]. cbn [res_map].
    destruct Ig as [-> |Ig].
    - assert (E : get_master_guide value vertical (Z.of_nat m) g = Err IndexError).
      { unfold get_master_guide, py_index. rewrite !N.
        assert (R : (Z.of_nat (List.length g) <=? Z.of_nat m) = true) by lia. rewrite R. reflexivity. }
      rewrite E. reflexivity.
    - rewrite IH by assumption. destruct (B vertical x) as [(u & ->)| ->]; reflexivity. }
  unfold extract_guides, get_master_guides. apply in_app_or in I. destruct I as [I|I].
  - rewrite (Y false _ I). reflexivity.
  - rewrite (Y true _ I). destruct (X false (gs_h d)) as [(us & ->)| ->]; reflexivity.
Qed.

(** Different colours stay different. *)
Theorem C67_colors_distinct : forall r g b r' g' b' s,
  byte_range r -> byte_range g -> byte_range b -> byte_range r' -> byte_range g' -> byte_range b' ->
  color_text r g b s -> color_text r' g' b' s -> r = r' /\ g = g' /\ b = b'.
Proof.
  unfold byte_range. intros r g b r' g' b' s Hr Hg Hb Hr' Hg' Hb'
    (tr & tg & tb & Dr & Dg & Db & ->) (tr' & tg' & tb' & Dr' & Dg' & Db' & E).
  assert (K : forall k k' t t' u u', decimal4 k t -> decimal4 k' t' -> 0 <= k <= 255 -> 0 <= k' <= 255 ->
    t ++ u = t' ++ u' -> k = k' /\ u = u').
  { clear. intros k k' t t' u u' (a & b & c & d & e & -> & F & A) (a' & b' & c' & d' & e' & -> & F' & A') Hk Hk' E.
    assert (H : forall i, nth i ([48 + a; 46; 48 + b; 48 + c; 48 + d; 48 + e] ++ u) 0 =
                          nth i ([48 + a'; 46; 48 + b'; 48 + c'; 48 + d'; 48 + e'] ++ u') 0) by (now rewrite E).
    pose proof (H 0%nat) as E0. pose proof (H 2%nat) as E2. pose proof (H 3%nat) as E3.
    pose proof (H 4%nat) as E4. pose proof (H 5%nat) as E5. cbn [app nth] in E0, E2, E3, E4, E5. clear H.
    split; [lia|]. change u with (skipn 6 ([48 + a; 46; 48 + b; 48 + c; 48 + d; 48 + e] ++ u)). rewrite E. reflexivity. }
  apply (K r r') in E; [|assumption..]. destruct E as [-> E]. apply app_inv_head in E.
  apply (K g g') in E; [|assumption..]. destruct E as [-> E]. apply app_inv_head in E.
  apply (K b b') in E; [|assumption..]. destruct E as [-> _]. auto.
Qed.

(** The index of a property is not checked: with a negative one, which a VFB can hold, the properties
    go to a guide counted from the end. *)
Theorem C67_negative_refuted : exists d p h,
  gp_index p < 0 /\
  extract_guides (fun _ => (0 # 1)%Q) d (GuideProps [p] []) 0 = Ok h /\
  exists u, nth_error h 1 = Some u /\ ug_name u = Some (py "n").
Proof.
  exists (Guides [[GuideMaster 1 0]; [GuideMaster 2 0]; [GuideMaster 3 0]] []),
         (GuideProp (-1) None (Some (py "n"))).
  eexists. split; [reflexivity|]. split; [vm_compute; reflexivity|]. eexists. split; reflexivity.
Qed.

(** A colour with a fourth byte, which a VFB can hold, is read with its digits shifted. *)
Theorem C67_wide_color_refuted : exists c s,
  guide_color (2 ^ 24 + vfb_color 0 0 255) = Some c /\ ufo_color c = Ok s /\
  color_text 0 15 1 s.
Proof.
  eexists. eexists. split; [vm_compute; reflexivity|]. split; [vm_compute; reflexivity|].
  exists (fraction 0), (fraction 15), (fraction 1).
  repeat (split; [apply fraction_ok; unfold byte_range; lia|]). vm_compute. reflexivity.
Qed.

Example C67_ex :
  let d := Guides [[GuideMaster 500 0; GuideMaster 510 1]] [[GuideMaster 20 0; GuideMaster 30 1]] in
  let props := GuideProps [GuideProp 1 (guide_color (vfb_color 255 128 0)) (Some (py "xheight"))]
                          [GuideProp 2 None (Some (py "missing"))] in
  let value := fun a => if a =? 0 then (0 # 1)%Q else (-(12345 # 1000))%Q in
  Forall (fun g => exists mg, nth_error g 1 = Some mg /\ (-(90 # 1) <= value (gm_angle mg) <= 90 # 1)%Q)
         (gs_h d ++ gs_v d) /\
  Forall guide_prop_ok (gps_h props ++ gps_v props) /\
  extract_guides value d props 1 =
    Ok [UfoGuide (34766 # 100) 0 510 (Some (py "1.0000,0.5020,0.0000,1")) (Some (py "xheight"));
        UfoGuide (10234 # 100) 30 0 None None].
Proof.
  split; [|split; [|vm_compute; reflexivity]].
  - repeat apply Forall_cons; try apply Forall_nil; eexists; (split; [reflexivity|]); split; vm_compute; discriminate.
  - repeat apply Forall_cons; try apply Forall_nil.
    + split; [cbn; lia|]. right. exists 255, 128, 0. unfold byte_range. repeat (split; [lia|]). reflexivity.
    + split; [cbn; lia|]. now left.
Qed.

Print Assumptions C67_guides.
Print Assumptions C67_missing.
Print Assumptions C67_colors_distinct.
Print Assumptions C67_negative_refuted.
Print Assumptions C67_wide_color_refuted.
