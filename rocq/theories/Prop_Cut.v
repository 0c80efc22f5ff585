(** C110: files that were cut off. *)
From Coq Require Import ZifyBool ZifyNat.
From Verif Require Import Base M_Stream M_Container S_Stream S_File Lib P_Stream P_Container Prop_Container.
Local Open Scope list_scope.
Open Scope rd_scope.

(** reading has come to its end without an exception *)
Definition accepted {D} (r : vfb D * out unit) : Prop := exists rest, snd r = ROk tt rest.
(** [a] is [b] without some of its last bytes *)
Definition cut (a b : bytes) : Prop := prefix a b /\ a <> b.

Lemma diverges_not : forall D (r : vfb D * out unit), diverges r -> ~ accepted r.
Proof. intros D r [s E] [t F]. congruence. Qed.
Lemma cut_app : forall a b p, prefix p (a ++ b) -> (exists q, p = a ++ q /\ prefix q b) \/ cut p a.
Proof.
  induction a as [|x a IH]; intros b p [c E].
  - left. exists p. split; [reflexivity|exists c; exact E].
  - destruct p as [|y p].
    + right. split; [exists (x :: a); reflexivity|discriminate].
    + cbn [app] in E. injection E as <- E. destruct (IH b p (ex_intro _ c E)) as [(q & -> & Q)|[[d ->] N]].
      * left. exists q. split; [reflexivity|exact Q].
      * right. split; [exists d; reflexivity|]. intros F. apply N. injection F as F. exact F.
Qed.
Lemma cut_length : forall a b, cut a b -> (length a < length b)%nat.
Proof.
  intros a b [[c ->] N]. rewrite app_length. destruct c; [|cbn; lia]. exfalso. apply N. now rewrite app_nil_r.
Qed.
Lemma drop_short : forall n (s : bytes), Z.of_nat (length s) <= n -> drop n s = [].
Proof. intros n s H. unfold drop. replace (n <? 0) with false by lia. apply skipn_all2. lia. Qed.

(** ** A header that was cut off *)
Lemma header_cut : forall D (T : codecs D) minor uni fuel p, cut p (header44 minor) ->
  ~ accepted (vfb_read_bytes T fuel (new_vfb [] false uni) p).
Proof.
  intros D T minor uni fuel p H. pose proof (cut_length _ _ H) as L. change (length (header44 minor)) with 44%nat in L.
  destruct H as [[c E] _].
  assert (P : p = firstn (length p) (header44 minor)) by (rewrite E, firstn_app, firstn_all, Nat.sub_diag; cbn; now rewrite app_nil_r).
  revert P L. generalize (length p). intros n -> L. clear c E.
  unfold vfb_read_bytes, read_stream.
  assert (C : (n < 7)%nat \/ n = 7%nat \/ n = 8%nat \/ (8 < n)%nat) by lia. destruct C as [C|[->|[->|C]]].
  - assert (X : exists r, parse_header (firstn n (header44 minor)) = RErr AssertionError r).
    { do 7 (destruct n as [|n]; [eexists; vm_compute; reflexivity|]). lia. }
    destruct X as [r ->]. intros [rest F]. discriminate.
  - assert (X : exists h, parse_header (firstn 7 (header44 minor)) = ROk h (firstn 7 (header44 minor))) by (eexists; vm_compute; reflexivity).
    destruct X as [h ->]. apply diverges_not. destruct fuel as [|fuel]; [eexists; reflexivity|]. apply (loop_at_end D T fuel).
  - assert (X : exists h, parse_header (firstn 8 (header44 minor)) = ROk h (firstn 8 (header44 minor))) by (eexists; vm_compute; reflexivity).
    destruct X as [h ->]. apply diverges_not. destruct fuel as [|fuel]; [eexists; reflexivity|]. apply (loop_at_end D T fuel).
  - assert (X : exists h, parse_header (firstn n (header44 minor)) = ROk h []).
    { do 9 (destruct n as [|n]; [lia|]). do 35 (destruct n as [|n]; [eexists; vm_compute; reflexivity|]). lia. }
    destruct X as [h ->]. apply diverges_not, loop_at_end.
Qed.

(** ** An entry that was cut off *)
Lemma drop_nil : forall n, drop n [] = []. Proof. intros n. unfold drop. destruct (n <? 0); [reflexivity|apply skipn_nil]. Qed.
Lemma take_nil : forall n, take n [] = []. Proof. intros n. unfold take. destruct (n <? 0); [reflexivity|apply firstn_nil]. Qed.
Lemma take_short : forall n (s : bytes), Z.of_nat (length s) <= n -> take n s = s.
Proof. intros n s H. unfold take. replace (n <? 0) with false by lia. apply firstn_all2. lia. Qed.
Lemma cut_tail : forall a b p, cut (a ++ p) (a ++ b) -> cut p b.
Proof.
  intros a b p [[c E] N]. rewrite <- app_assoc in E. apply app_inv_head in E. split; [exists c; exact E|]. intros ->. apply N. reflexivity.
Qed.

Lemma read_cut : forall D c i d p, framable (i, d) -> (i = 1410 -> Z.of_nat (length d) = 8 + 2 * num_masters c) ->
  cut p (frame i d) -> p <> [] ->
  (p = [i mod 256] /\ @read_entry D c p = ROk (mkEntry (Some (i mod 256)) (Raw []) None) []) \/
  ((2 <= length p)%nat /\ exists d', prefix d' d /\ @read_entry D c p = ROk (mkEntry (Some i) (Raw d') None) []).
Proof.
  intros D c i d p [H1 H2] Hm C N. cbn [fst snd] in *.
  set (n := Z.of_nat (length d)) in *. assert (Hn0 : 0 <= n) by lia.
  assert (Hn : (if i =? F_MMKernPair then 2 * 4 + num_masters c * 2 else n) = n).
  { destruct (i =? F_MMKernPair) eqn:E; [|reflexivity]. unfold F_MMKernPair in E. rewrite (Hm ltac:(lia)). lia. }
  assert (F : exists raw k, frame i d = le_enc 2 raw ++ le_enc k n ++ d /\ 0 <= raw < 65536 /\ raw mod 256 = i mod 256 /\
    Z.land raw (Z.lnot 0x8000) = i /\
    (forall rest, (if Z.land raw 0x8000 =? 0 then read_uint16 else read_uint32) (le_enc k n ++ rest) = ROk n rest) /\
    forall q, cut q (le_enc k n) -> exists m, (if Z.land raw 0x8000 =? 0 then read_uint16 else read_uint32) q = ROk m []).
  { unfold frame, le. fold n. destruct (n <=? 65535) eqn:E.
    - exists i, 2%nat. rewrite <- app_assoc, ldiff_8000_low, land_8000_low by lia. change (0 =? 0) with true. cbv iota.
      repeat (split; [reflexivity || lia|]). split; [intros rest; apply read_uint16_le; lia|].
      intros q Q. apply cut_length in Q. rewrite le_enc_length in Q. unfold read_uint16, rbind, read_bytes, ret.
      rewrite drop_short by lia. eexists. reflexivity.
    - exists (i + 32768), 4%nat. rewrite <- app_assoc, ldiff_8000_high, land_8000_high by lia. change (32768 =? 0) with false. cbv iota.
      split; [reflexivity|]. split; [lia|]. split; [change 32768 with (128 * 256); apply Z_mod_plus_full|]. split; [reflexivity|].
      split; [intros rest; apply read_uint32_le; cbn in H2; lia|].
      intros q Q. apply cut_length in Q. rewrite le_enc_length in Q. unfold read_uint32, rbind, read_bytes, ret.
      rewrite drop_short by lia. eexists. reflexivity. }
  destruct F as (raw & k & F & R1 & R2 & R3 & R4 & R5). rewrite F in C.
  destruct p as [|x [|y q]]; [congruence| |].
  - left. destruct C as [[e E] _]. cbn [le_enc app] in E. injection E as E _. rewrite R2 in E. subst x. split; [reflexivity|].
    pose proof (Z.mod_pos_bound i 256 eq_refl) as B. unfold read_entry, rbind at 1, read_uint16 at 1, rbind at 1, read_bytes at 1, ret at 1.
    rewrite take_short, drop_short by (cbn; lia). cbn [le_dec]. replace (i mod 256 + 256 * 0) with (i mod 256) by lia.
    rewrite land_8000_low, ldiff_8000_low by lia. change (0 =? 0) with true. cbv iota.
    unfold read_uint16, rbind, read_bytes, ret. rewrite !drop_nil, !take_nil. reflexivity.
  - right. split; [cbn; lia|].
    assert (Ep : x :: y :: q = le_enc 2 raw ++ q).
    { destruct C as [[e E] _]. cbn [le_enc app] in E |- *. injection E as E1 E2 _. rewrite E1, E2. reflexivity. }
    rewrite Ep in C. apply cut_tail in C. destruct (cut_app _ _ _ (proj1 C)) as [(q2 & -> & Q)|Q].
    + exists q2. split; [exact Q|]. apply cut_tail, cut_length in C. rewrite Ep.
      unfold read_entry. unfold rbind at 1. rewrite read_uint16_le by lia. rewrite R3. unfold rbind at 1. rewrite R4, Hn.
      unfold rbind, read_bytes, ret. rewrite take_short, drop_short by lia. reflexivity.
    + exists []. split; [exists d; reflexivity|]. destruct (R5 q Q) as [m E]. rewrite Ep.
      unfold read_entry. unfold rbind at 1. rewrite read_uint16_le by lia. rewrite R3. unfold rbind at 1. rewrite E.
      unfold rbind, read_bytes, ret. rewrite take_nil, drop_nil. reflexivity.
Qed.

(** ** Reading on *)
Notation frames l := (flat_map (fun p => frame (fst p) (snd p)) l).
Lemma cut_frames : forall l p, cut p (frames l) ->
  exists l1 i d l2 q, l = l1 ++ (i, d) :: l2 /\ p = frames l1 ++ q /\ cut q (frame i d).
Proof.
  induction l as [|[i d] l IH]; intros p H.
  - apply cut_length in H. cbn in H. lia.
  - cbn [flat_map fst snd] in H. destruct (cut_app _ _ _ (proj1 H)) as [(q & -> & Q)|Q].
    + apply cut_tail in H. destruct (IH q H) as (l1 & j & e & l2 & q2 & -> & -> & C).
      exists ((i, d) :: l1), j, e, l2, q2. split; [reflexivity|]. split; [|exact C]. cbn [flat_map fst snd]. now rewrite app_assoc.
    + exists [], i, d, l, p. split; [reflexivity|]. split; [reflexivity|exact Q].
Qed.
Lemma more_fuel : forall D (T : codecs D) f v s k, accepted (read_loop T f v s) -> read_loop T (f + k) v s = read_loop T f v s.
Proof.
  induction f as [|f IH]; intros v s k [r A]; [discriminate|]. cbn [plus]. cbn [read_loop] in *.
  destruct (read_entry (v_ctx v) s) as [e r1|x r1]; [|reflexivity]. destruct (e_id e) as [i|]; [|reflexivity].
  destruct (is_eager i).
  - destruct (entry_decompile T (v_ctx v) e) as [[e' err] o]. destruct o; [|reflexivity].
    destruct (e_data e'); apply IH; eexists; exact A.
  - destruct (i =? F_BlockFileDataEnd); [reflexivity|]. apply IH. eexists; exact A.
Qed.
Lemma last_turn : forall D (T : codecs D) f v s i d, @read_entry D (v_ctx v) s = ROk (mkEntry (Some i) (Raw d) None) [] -> i <> 2 ->
  ~ accepted (read_loop T f v s).
Proof.
  intros D T f v s i d E N. destruct f as [|f]; [apply diverges_not; eexists; reflexivity|]. cbn [read_loop]. rewrite E. cbn [e_id].
  destruct (is_eager i).
  - destruct (entry_decompile T (v_ctx v) _) as [[e' err] o]. destruct o as [u|x]; [|intros [r F]; discriminate].
    destruct (e_data e'); apply diverges_not, loop_at_end.
  - change F_BlockFileDataEnd with 2. replace (i =? 2) with false by lia. apply diverges_not, loop_at_end.
Qed.

Lemma not_marker : forall l1 i d l2, ends_once (l1 ++ (i, d) :: l2) -> ~ In 2 (map fst l1) /\ (l2 <> [] -> i <> 2) /\ (l2 = [] -> i = 2).
Proof.
  intros l1 i d l2 (l0 & e & E & N). destruct (exists_last (l := (i, d) :: l2) ltac:(discriminate)) as (l3 & x & X).
  rewrite X, app_assoc in E. apply app_inj_tail in E. destruct E as [E ->]. rewrite <- E, map_app, in_app_iff in N.
  split; [tauto|]. split.
  - intros L. destruct l3 as [|y l3]; [cbn in X; congruence|]. cbn [app] in X. injection X as <- _. intros ->. apply N. right. left. reflexivity.
  - intros ->. destruct l3 as [|y l3]; [injection X as -> _; reflexivity|]. cbn [app] in X. injection X as _ X. destruct l3; discriminate.
Qed.
(** the state that reading is in after the entries of [l1], and what it makes of the bytes [q] that follow *)
Lemma read_part : forall D (T : codecs D) minor l1 c1 d1 uni q, 0 <= minor < 256 -> Forall framable l1 -> ~ In 2 (map fst l1) ->
  reads_as T ctx0 l1 c1 d1 -> exists w, v_header w = HDec (fl_header minor) /\ v_ctx w = c1 /\ v_drop w = [] /\
    v_entries w = fresh_entries l1 d1 /\
    forall fuel, vfb_read_bytes T (length l1 + fuel) (new_vfb [] false uni) (file_of minor l1 ++ q) = read_loop T fuel w q.
Proof.
  intros D T minor l1 c1 d1 uni q Hm Hf Hn Hr. unfold vfb_read_bytes, read_stream, file_of.
  set (v0 := with_header (HDec (fl_header minor)) (vfb_clear (new_vfb (D:=D) [] false uni))).
  destruct (read_loop_frames T _ _ _ _ Hr v0) as (w & W1 & W2 & W3 & W4); auto.
  exists w. destruct W3 as (S1 & S2 & S3 & S4 & S5). split; [rewrite <- S1; reflexivity|]. split; [exact W1|].
  split; [rewrite <- S3; reflexivity|]. split; [exact W2|].
  intros fuel. rewrite <- app_assoc, parse_header44 by exact Hm. fold v0. change (v_only_header v0) with false. cbv iota. apply W4.
Qed.
Lemma read_fuel : forall D (T : codecs D) f v s k, accepted (vfb_read_bytes T f v s) ->
  vfb_read_bytes T (f + k) v s = vfb_read_bytes T f v s.
Proof.
  intros D T f v s k A. unfold vfb_read_bytes, read_stream in *. destruct (parse_header s) as [h r|x r]; [|reflexivity].
  destruct (v_only_header _); [reflexivity|]. apply more_fuel, A.
Qed.

(** A file that was cut off is only accepted if it was cut inside of the end marker, or
    after the first byte of an entry whose id has 2 as the low byte. *)
Theorem C110_cut : forall D (T : codecs D) minor l c' ds uni fuel p,
  0 <= minor < 256 -> Forall framable l -> ends_once l -> reads_as T ctx0 l c' ds -> cut p (file_of minor l) ->
  accepted (vfb_read_bytes T fuel (new_vfb [] false uni) p) ->
  (exists l0 d q, l = l0 ++ [(2, d)] /\ p = file_of minor l0 ++ q /\ q <> []) \/
  (exists l1 i d l2, l = l1 ++ (i, d) :: l2 /\ l2 <> [] /\ i mod 256 = 2 /\ p = file_of minor l1 ++ [2]).
Proof.
  intros D T minor l c' ds uni fuel p Hm Hf He Hr C A. unfold file_of in C.
  destruct (cut_app _ _ _ (proj1 C)) as [(q & -> & Q)|Q]; [|destruct (header_cut D T minor uni fuel p Q A)].
  apply cut_tail in C. destruct (cut_frames _ _ C) as (l1 & i & d & l2 & q2 & -> & -> & C2). clear C Q.
  destruct (not_marker _ _ _ _ He) as (N1 & N2 & N3).
  destruct (reads_as_app _ _ _ _ _ _ _ Hr) as (c1 & d1 & d2 & -> & R1 & R2).
  apply Forall_app in Hf. destruct Hf as [F1 F2]. inversion F2 as [|? ? F3 F4]; subst.
  destruct (read_part D T minor l1 c1 d1 uni q2 Hm F1 N1 R1) as (w & W1 & W2 & W3 & W4 & W5).
  rewrite app_assoc in A. fold (file_of minor l1) in A. rewrite app_assoc. fold (file_of minor l1).
  pose proof A as A'. rewrite <- (read_fuel D T _ _ _ (length l1) A), Nat.add_comm, W5 in A'. clear A W5.
  assert (Hk : i = 1410 -> Z.of_nat (length d) = 8 + 2 * num_masters (v_ctx w)).
  { intros ->. rewrite W2. inversion R2; subst; auto. }
  destruct q2 as [|x q2]; [destruct (diverges_not _ _ (loop_at_end D T fuel w) A')|].
  destruct (read_cut D (v_ctx w) i d (x :: q2) F3 Hk C2 ltac:(discriminate)) as [[X E]|[L (d' & P & E)]].
  - rewrite X in A', E |- *. destruct (Z.eq_dec (i mod 256) 2) as [E2|E2]; [|destruct (last_turn D T fuel w _ _ _ E E2 A')].
    destruct l2 as [|y l2].
    + left. rewrite (N3 eq_refl) in *. exists l1, d, [2]. split; [reflexivity|]. split; [reflexivity|discriminate].
    + right. exists l1, i, d, (y :: l2). rewrite E2. repeat split; discriminate || reflexivity || assumption.
  - destruct (Z.eq_dec i 2) as [->|E2]; [|destruct (last_turn D T fuel w _ _ _ E E2 A')].
    left. destruct l2 as [|y l2]; [|destruct (N2 ltac:(discriminate) eq_refl)].
    exists l1, d, (x :: q2). split; [reflexivity|]. split; [reflexivity|discriminate].
Qed.
(** Cut in the end marker, the file is read as before, but for the data of the end marker (there is none usually). *)
Theorem C110_marker : forall D (T : codecs D) minor l0 d c' ds uni p,
  0 <= minor < 256 -> Forall framable l0 -> framable (2, d) -> ~ In 2 (map fst l0) -> reads_as T ctx0 l0 c' ds ->
  cut p (frame 2 d) -> p <> [] -> exists w d', prefix d' d /\
    (forall fuel, (length l0 < fuel)%nat -> vfb_read_bytes T fuel (new_vfb [] false uni) (file_of minor l0 ++ p) = (w, ROk tt [])) /\
    v_header w = HDec (fl_header minor) /\ v_ctx w = c' /\ v_entries w = fresh_entries (l0 ++ [(2, d')]) (ds ++ [Raw d']).
Proof.
  intros D T minor l0 d c' ds uni p Hm Hf Hd Hn Hr C N.
  destruct (read_part D T minor l0 c' ds uni p Hm Hf Hn Hr) as (w & W1 & W2 & W3 & W4 & W5).
  assert (E : exists d', prefix d' d /\ @read_entry D (v_ctx w) p = ROk (mkEntry (Some 2) (Raw d') None) []).
  { destruct (read_cut D (v_ctx w) 2 d p Hd ltac:(discriminate) C N) as [[_ E]|[_ E]]; [|exact E].
    exists []. split; [exists d; reflexivity|exact E]. }
  destruct E as (d' & P & E). exists (append_entry 2 (mkEntry (Some 2) (Raw d') None) w), d'. split; [exact P|]. split.
  - intros fuel L. replace fuel with (length l0 + S (fuel - length l0 - 1))%nat by lia. rewrite W5. cbn [read_loop]. rewrite E. reflexivity.
  - rewrite append_nodrop by exact W3. cbn. rewrite W4, fresh_entries_app by (eapply reads_as_length; eauto).
    split; [exact W1|]. split; [exact W2|reflexivity].
Qed.
(** Cut after the first byte of an entry whose id has 2 as the low byte, the file is accepted without that entry and
    all that follow. *)
Theorem C110_lost : forall D (T : codecs D) minor l1 c1 d1 i d l2 uni,
  0 <= minor < 256 -> Forall framable l1 -> ~ In 2 (map fst l1) -> reads_as T ctx0 l1 c1 d1 -> framable (i, d) -> i mod 256 = 2 ->
  cut (file_of minor l1 ++ [2]) (file_of minor (l1 ++ (i, d) :: l2)) /\
  exists w, (forall fuel, (length l1 < fuel)%nat ->
      vfb_read_bytes T fuel (new_vfb [] false uni) (file_of minor l1 ++ [2]) = (w, ROk tt [])) /\
    v_header w = HDec (fl_header minor) /\ v_ctx w = c1 /\ v_entries w = fresh_entries (l1 ++ [(2, [])]) (d1 ++ [Raw []]).
Proof.
  intros D T minor l1 c1 d1 i d l2 uni Hm Hf Hn Hr Hd H2. split.
  - assert (F : exists x r, frame i d = 2 :: x :: r).
    { unfold frame, le. destruct (Z.of_nat (length d) <=? 65535); cbn [le_enc app].
      - rewrite H2. eexists _, _. reflexivity.
      - replace ((i + 32768) mod 256) with 2; [eexists _, _; reflexivity|].
        change 32768 with (128 * 256). now rewrite Z_mod_plus_full. }
    destruct F as (x & r & F). unfold file_of. rewrite flat_map_app. cbn [flat_map fst snd]. rewrite F. split.
    + exists (x :: r ++ frames l2). rewrite <- !app_assoc. reflexivity.
    + rewrite <- app_assoc. intros E. apply app_inv_head, app_inv_head in E. discriminate.
  - destruct (C110_marker D T minor l1 [] c1 d1 uni [2] Hm Hf ltac:(split; cbn; lia) Hn Hr) as (w & d' & [e P] & W).
    + split; [exists [0; 0; 0]; reflexivity|discriminate].
    + discriminate.
    + destruct d'; [|discriminate]. exists w. exact W.
Qed.
(** For example a font of three entries of which two are lost; 1026 is the weight name. *)
Theorem C110_noticed_refuted : forall D (T : codecs D), exists minor l ds p w, Forall framable l /\ ends_once l /\
  reads_as T ctx0 l ctx0 ds /\ cut p (file_of minor l) /\ length l = 4%nat /\
  (forall fuel, (2 <= fuel)%nat -> vfb_read_bytes T fuel (new_vfb [] false false) p = (w, ROk tt [])) /\
  v_entries w = [mkEntry (Some 1024) (Raw [65]) None; mkEntry (Some 2) (Raw []) None].
Proof.
  intros D T. set (l := [(1024, [65]); (1026, [66]); (1025, [67]); (2, [])]).
  destruct (C110_lost D T 4 [(1024, [65])] ctx0 [Raw [65]] 1026 [66] [(1025, [67]); (2, [])] false) as [C (w & W & _ & _ & E)].
  - lia.
  - repeat constructor; cbn; lia.
  - cbn. lia.
  - repeat constructor; discriminate.
  - split; cbn; lia.
  - reflexivity.
  - exists 4, l, [Raw [65]; Raw [66]; Raw [67]; Raw []], (file_of 4 [(1024, [65])] ++ [2]), w.
    split; [repeat constructor; cbn; lia|]. split; [exists (firstn 3 l), []; split; [reflexivity|cbn; lia]|].
    split; [repeat constructor; discriminate|]. split; [exact C|]. split; [reflexivity|]. split; [|exact E].
    intros fuel L. apply W. cbn. lia.
Qed.
(** The same font, cut in an entry: reading it does not end. *)
Example C110_meets : forall D (T : codecs D) fuel, let l := [(1024, [65]); (1026, [66]); (1025, [67]); (2, [])] in
  cut (file_of 4 [(1024, [65])] ++ [2; 4; 1]) (file_of 4 l) /\
  ~ accepted (vfb_read_bytes T fuel (new_vfb [] false false) (file_of 4 [(1024, [65])] ++ [2; 4; 1])).
Proof.
  intros D T fuel l.
  assert (C : cut (file_of 4 [(1024, [65])] ++ [2; 4; 1]) (file_of 4 l)).
  { split; [exists (0 :: 66 :: frame 1025 [67] ++ frame 2 []); vm_compute; reflexivity|vm_compute; discriminate]. }
  split; [exact C|]. intros A.
  destruct (C110_cut D T 4 l ctx0 [Raw [65]; Raw [66]; Raw [67]; Raw []] false fuel _ ltac:(lia)
      ltac:(repeat constructor; cbn; lia) ltac:(exists (firstn 3 l), []; split; [reflexivity|cbn; lia])
      ltac:(repeat constructor; discriminate) C A)
    as [(l0 & d & q & E & P & _)|(l1 & i & d & l2 & E & _ & _ & P)].
  - change l with (firstn 3 l ++ [(2, [])]) in E. apply app_inj_tail in E. destruct E as [<- _].
    apply (f_equal (@length Z)) in P. rewrite !app_length in P. vm_compute in P. lia.
  - apply (f_equal (@length Z)) in P. rewrite !app_length in P.
    destruct l1 as [|a [|b l1]]; [vm_compute in P; lia|injection E as <- _; vm_compute in P; lia|].
    injection E as <- <- _. cbn [file_of flat_map fst snd] in P. unfold file_of in P. cbn [flat_map fst snd] in P.
    rewrite !app_length in P. cbn in P. lia.
Qed.
Print Assumptions C110_cut. Print Assumptions C110_marker. Print Assumptions C110_lost. Print Assumptions C110_noticed_refuted.
