(** C103: fonts that a program assembles with [Vfb()], [VfbEntry] and [add_entry]. *)
From Coq Require Import List String ZifyBool ZifyNat.
From Verif Require Import Base Lib M_Stream P_Stream M_Py M_Text M_Simple M_Glyph M_Container M_Table S_File P_Container
  Prop_Container M_Assemble S_Assemble.
Local Open Scope list_scope.

(** ** The objects of a program *)
Lemma change_length : forall A k (f : A -> A) l, List.length (change k f l) = List.length l.
Proof. intros A k f l. revert k. induction l; intros [|k]; cbn; auto. Qed.
Lemma change_same : forall A k (f : A -> A) l, nth_error (change k f l) k = option_map f (nth_error l k).
Proof. intros A k f l. revert k. induction l; intros [|k]; cbn; auto. Qed.
Lemma change_other : forall A k j (f : A -> A) l, k <> j -> nth_error (change k f l) j = nth_error l j.
Proof. intros A k j f l. revert k j. induction l; intros [|k] [|j] N; cbn; auto; congruence. Qed.

Lemma last_said_snoc : forall D A (says : op D -> option A) d ops o,
  last_said says d (ops ++ [o]) = match says o with Some a => a | None => last_said says d ops end.
Proof.
  intros. unfold last_said. rewrite flat_map_app. cbn [flat_map]. rewrite app_nil_r.
  destruct (says o) as [a|]; [apply last_last|]. rewrite app_nil_r. reflexivity.
Qed.
Lemma last_said_none : forall D A (says : op D -> option A) d ops,
  Forall (fun o => says o = None) ops -> last_said says d ops = d.
Proof.
  intros D A says d ops H. unfold last_said.
  assert (flat_map (fun o => match says o with Some a => [a] | None => [] end) ops = []) as ->; [|reflexivity].
  induction H; cbn; auto. rewrite H. exact IHForall.
Qed.

Lemma program_snoc : forall D (ops : list (op D)) o, program (ops ++ [o]) -> program ops /\ uses_made ops o.
Proof.
  intros D ops o H. split.
  - intros b x a ->. apply (H b x (a ++ [o])). rewrite <- app_assoc. reflexivity.
  - apply (H ops o []). reflexivity.
Qed.

Lemma fonts_made_app : forall D (a b : list (op D)), fonts_made (a ++ b) = (fonts_made a + fonts_made b)%nat.
Proof. intros. unfold fonts_made. rewrite filter_app, app_length. reflexivity. Qed.
Lemma entries_made_app : forall D (a b : list (op D)), entries_made (a ++ b) = entries_made a ++ entries_made b.
Proof. intros. apply flat_map_app. Qed.

(** nothing is said of a font or entry before it is made *)
Lemma font_unused : forall D (ops : list (op D)) k, program ops -> (fonts_made ops <= k)%nat ->
  Forall (fun o => match o with OHeader f _ | OMasters f _ | OAdd f _ => f <> k | _ => True end) ops.
Proof.
  intros D ops k P L. apply Forall_forall. intros o Hin. apply in_split in Hin.
  destruct Hin as (b & a & ->). pose proof (P b o a eq_refl) as U.
  rewrite fonts_made_app in L. destruct o; cbn in U; auto; lia.
Qed.
Lemma entry_unused : forall D (ops : list (op D)) e, program ops -> (List.length (entries_made ops) <= e)%nat ->
  Forall (fun o => match o with OAdd _ x | OData x _ => x <> e | _ => True end) ops.
Proof.
  intros D ops e P L. apply Forall_forall. intros o Hin. apply in_split in Hin.
  destruct Hin as (b & a & ->). pose proof (P b o a eq_refl) as U.
  rewrite entries_made_app, app_length in L. destruct o; cbn in U; auto; lia.
Qed.

Lemma added_unused : forall D (ops : list (op D)) k, program ops -> (fonts_made ops <= k)%nat -> added k ops = [].
Proof.
  intros D ops k P L. pose proof (font_unused _ _ _ P L) as U. unfold added.
  clear P L. induction U as [|o ops H U IH]; cbn; auto. rewrite IH, app_nil_r.
  destruct o; auto. destruct (Nat.eqb_spec k font); congruence.
Qed.
Lemma header_unused : forall D (ops : list (op D)) k, program ops -> (fonts_made ops <= k)%nat ->
  header_said k ops = HNone /\ masters_said k ops = 0.
Proof.
  intros D ops k P L. pose proof (font_unused _ _ _ P L) as U.
  split; apply last_said_none; eapply Forall_impl; try exact U; intros [] H; cbn in *; auto;
    unfold if_same; destruct (Nat.eqb_spec k font); congruence.
Qed.

Definition font_is {D} (ops : list (op D)) (k : nat) : font :=
  Font (header_said k ops) (mkCtx (masters_said k ops) 0 0 MacOS) (added k ops).
Definition entry_is {D} (ops : list (op D)) (e : nat) : nat * entry D :=
  (parent_said e ops, mkEntry (id_said e ops) (data_said e ops) None).

Lemma run_fonts : forall D (ops : list (op D)), program ops ->
  List.length (w_fonts (run ops)) = fonts_made ops /\
  forall k, (k < fonts_made ops)%nat -> nth_error (w_fonts (run ops)) k = Some (font_is ops k).
Proof.
  intros D. induction ops as [|o ops IH] using rev_ind; intros P.
  - split; [reflexivity|]. intros k H. cbn in H. lia.
  - destruct (program_snoc _ _ _ P) as [P' U]. destruct (IH P') as [L F]. clear IH.
    unfold run in *. rewrite fold_left_app. cbn [fold_left]. set (w := fold_left step ops (World [] [])) in *.
    rewrite fonts_made_app.
    assert (K : forall k g, (forall x, nth_error (w_fonts w) k = Some x -> g x = font_is (ops ++ [o]) k) ->
                (k < fonts_made ops)%nat -> option_map g (nth_error (w_fonts w) k) = Some (font_is (ops ++ [o]) k)).
    { intros k g G Hk. rewrite (F k Hk). cbn. f_equal. apply G. apply F. exact Hk. }
    assert (K0 : forall k, (k < fonts_made ops)%nat -> font_is (ops ++ [o]) k = font_is ops k ->
                nth_error (w_fonts w) k = Some (font_is (ops ++ [o]) k)).
    { intros k Hk ->. apply F. exact Hk. }
    destruct o as [|f i d|f e|f h|f n|e d]; cbn [step w_fonts]; cbn [uses_made] in U;
      try rewrite change_length; try rewrite app_length; cbn [fonts_made filter List.length];
      (split; [cbn; lia|]); intros k Hk; cbn in Hk.
    + destruct (Nat.eq_dec k (fonts_made ops)) as [->|N].
      * rewrite nth_error_app2 by lia. rewrite L, Nat.sub_diag. cbn. f_equal. unfold font_is.
        unfold header_said, masters_said, added. rewrite !last_said_snoc, flat_map_app. cbn.
        fold (header_said (fonts_made ops) ops). fold (masters_said (fonts_made ops) ops).
        fold (added (fonts_made ops) ops).
        destruct (header_unused _ ops (fonts_made ops) P' ltac:(lia)) as [-> ->].
        rewrite (added_unused _ ops (fonts_made ops) P') by lia. reflexivity.
      * rewrite nth_error_app1 by lia. apply K0; [lia|].
        unfold font_is, header_said, masters_said, added. rewrite !last_said_snoc, flat_map_app. cbn.
        rewrite app_nil_r. reflexivity.
    + apply K0; [lia|].
      unfold font_is, header_said, masters_said, added. rewrite !last_said_snoc, flat_map_app. cbn.
      rewrite app_nil_r. reflexivity.
    + destruct (Nat.eq_dec f k) as [->|N].
      * rewrite change_same. apply K; [|lia]. intros x Hx. rewrite F in Hx by lia. inversion Hx; subst.
        unfold font_is, header_said, masters_said, added. rewrite !last_said_snoc, flat_map_app. cbn.
        rewrite Nat.eqb_refl. reflexivity.
      * rewrite change_other by exact N. apply K0; [lia|].
        unfold font_is, header_said, masters_said, added. rewrite !last_said_snoc, flat_map_app. cbn.
        destruct (Nat.eqb_spec k f); [congruence|]. cbn. rewrite app_nil_r. reflexivity.
    + destruct (Nat.eq_dec f k) as [->|N].
      * rewrite change_same. apply K; [|lia]. intros x Hx. rewrite F in Hx by lia. inversion Hx; subst.
        unfold font_is, header_said, masters_said, added. rewrite !last_said_snoc, flat_map_app. cbn.
        unfold if_same. rewrite Nat.eqb_refl, app_nil_r. reflexivity.
      * rewrite change_other by exact N. apply K0; [lia|].
        unfold font_is, header_said, masters_said, added. rewrite !last_said_snoc, flat_map_app. cbn.
        unfold if_same. destruct (Nat.eqb_spec k f); [congruence|]. rewrite app_nil_r. reflexivity.
    + destruct (Nat.eq_dec f k) as [->|N].
      * rewrite change_same. apply K; [|lia]. intros x Hx. rewrite F in Hx by lia. inversion Hx; subst.
        unfold font_is, header_said, masters_said, added. rewrite !last_said_snoc, flat_map_app. cbn.
        unfold if_same, set_num_masters. rewrite Nat.eqb_refl, app_nil_r. reflexivity.
      * rewrite change_other by exact N. apply K0; [lia|].
        unfold font_is, header_said, masters_said, added. rewrite !last_said_snoc, flat_map_app. cbn.
        unfold if_same. destruct (Nat.eqb_spec k f); [congruence|]. rewrite app_nil_r. reflexivity.
    + apply K0; [lia|].
      unfold font_is, header_said, masters_said, added. rewrite !last_said_snoc, flat_map_app. cbn.
      rewrite app_nil_r. reflexivity.
Qed.

Lemma run_entries : forall D (ops : list (op D)), program ops ->
  List.length (w_entries (run ops)) = List.length (entries_made ops) /\
  forall e, (e < List.length (entries_made ops))%nat -> nth_error (w_entries (run ops)) e = Some (entry_is ops e).
Proof.
  intros D. induction ops as [|o ops IH] using rev_ind; intros P.
  - split; [reflexivity|]. intros k H. cbn in H. lia.
  - destruct (program_snoc _ _ _ P) as [P' U]. destruct (IH P') as [L F]. clear IH.
    unfold run in *. rewrite fold_left_app. cbn [fold_left]. set (w := fold_left step ops (World [] [])) in *.
    rewrite entries_made_app, app_length.
    assert (Old : forall e, (e < List.length (entries_made ops))%nat ->
              match o with OAdd _ x | OData x _ => x <> e | _ => True end ->
              entry_is (ops ++ [o]) e = entry_is ops e).
    { intros e He No. unfold entry_is, parent_said, id_said, data_said. rewrite !last_said_snoc, entries_made_app.
      rewrite nth_error_app1 by lia. destruct o; try reflexivity; unfold if_same.
      - destruct (Nat.eqb_spec e entry); [congruence|reflexivity].
      - destruct (Nat.eqb_spec e entry); [congruence|reflexivity]. }
    destruct o as [|f i d|f e'|f h|f n|e' d]; cbn [step w_entries]; cbn [uses_made] in U;
      try rewrite change_length; try rewrite app_length;
      (split; [cbn; lia|]); intros e He; cbn in He.
    + rewrite Old by (auto; lia). apply F. lia.
    + destruct (Nat.eq_dec e (List.length (entries_made ops))) as [->|N].
      * rewrite nth_error_app2 by lia. rewrite L, Nat.sub_diag. cbn. f_equal.
        unfold entry_is, parent_said, id_said, data_said. rewrite !last_said_snoc, entries_made_app.
        rewrite nth_error_app2 by lia. rewrite Nat.sub_diag. cbn.
        pose proof (entry_unused _ ops _ P' (Nat.le_refl _)) as Un.
        rewrite !last_said_none; [reflexivity| |];
          (eapply Forall_impl; [|exact Un]); intros [] H; cbn in *; auto; unfold if_same;
          destruct (Nat.eqb_spec (List.length (entries_made ops)) entry); congruence.
      * rewrite nth_error_app1 by lia. rewrite Old by (auto; lia). apply F. lia.
    + destruct (Nat.eq_dec e' e) as [->|N].
      * rewrite change_same, F by lia. cbn. f_equal.
        unfold entry_is, parent_said, id_said, data_said. rewrite !last_said_snoc, entries_made_app.
        rewrite nth_error_app1 by lia. unfold if_same. rewrite Nat.eqb_refl. reflexivity.
      * rewrite change_other by exact N. rewrite Old by (auto; lia). apply F. lia.
    + rewrite Old by (auto; lia). apply F. lia.
    + rewrite Old by (auto; lia). apply F. lia.
    + destruct (Nat.eq_dec e' e) as [->|N].
      * rewrite change_same, F by lia. cbn. f_equal.
        unfold entry_is, parent_said, id_said, data_said. rewrite !last_said_snoc, entries_made_app.
        rewrite nth_error_app1 by lia. unfold if_same. rewrite Nat.eqb_refl. reflexivity.
      * rewrite change_other by exact N. rewrite Old by (auto; lia). apply F. lia.
Qed.

(** the entries of a font and their parents have been made *)
Lemma added_made : forall D (ops : list (op D)) k e, program ops -> In e (added k ops) ->
  (e < List.length (entries_made ops))%nat.
Proof.
  intros D ops k e P H. unfold added in H. apply in_flat_map in H. destruct H as (o & Hin & H).
  apply in_split in Hin. destruct Hin as (b & a & ->). pose proof (P b o a eq_refl) as U.
  destruct o; cbn in H; try contradiction. destruct (Nat.eqb k font); [|contradiction].
  destruct H as [<-|[]]. cbn in U. rewrite entries_made_app, app_length. lia.
Qed.
Lemma last_said_is : forall D A (says : op D -> option A) d ops,
  last_said says d ops = d \/ exists b o a, ops = b ++ o :: a /\ says o = Some (last_said says d ops).
Proof.
  intros D A says d. induction ops as [|o ops IH] using rev_ind; [left; reflexivity|].
  rewrite last_said_snoc. destruct (says o) as [a|] eqn:E.
  - right. exists ops, o, []. auto.
  - destruct IH as [H|(b & x & a & -> & H)]; [auto|]. right. exists b, x, (a ++ [o]).
    rewrite <- app_assoc. auto.
Qed.
Lemma parent_made : forall D (ops : list (op D)) e, program ops -> (e < List.length (entries_made ops))%nat ->
  (parent_said e ops < fonts_made ops)%nat.
Proof.
  intros D ops e P He. unfold parent_said.
  match goal with |- (last_said ?s ?d ops < _)%nat => destruct (last_said_is _ _ s d ops) as [->|(b & o & a & -> & H)] end.
  - destruct (nth_error (entries_made ops) e) as [[[f i] d]|] eqn:E; cbn.
    + apply nth_error_In in E. unfold entries_made in E. apply in_flat_map in E. destruct E as (o & Hin & H).
      apply in_split in Hin. destruct Hin as (b & a & ->). pose proof (P b o a eq_refl) as U.
      destruct o; cbn in H; try contradiction. destruct H as [H|[]]. inversion H; subst. cbn in U.
      rewrite fonts_made_app. lia.
    + apply nth_error_None in E. lia.
  - pose proof (P b o a eq_refl) as U. destruct o as [| |f e'| | |]; try discriminate. cbn in U.
    unfold if_same in H at 1. destruct (Nat.eqb e e'); [|discriminate]. injection H as H.
    rewrite fonts_made_app. match goal with |- (?x < _)%nat => replace x with f by (exact H) end. lia.
Qed.

Lemma compile_all_is : forall D (T : codecs D) ops, program ops ->
  forall es l, (forall e, In e es -> (e < List.length (entries_made ops))%nat) ->
  Forall2 (to_write T ops) es l -> Forall framable l ->
  exists es', compile_all T (run ops) es = (es', Ok tt) /\
    exists es2, write_entries es' = (es2, flat_map (fun p => frame (fst p) (snd p)) l, Ok tt).
Proof.
  intros D T ops P es l M H. induction H as [|e p es l W H IH]; intros F.
  - exists []. split; [reflexivity|]. exists []. reflexivity.
  - inversion F as [|? ? Fp Fl]; subst.
    destruct IH as (es' & C & es2 & W2); auto. { intros x Hx. apply M. right. exact Hx. }
    assert (He : (e < List.length (entries_made ops))%nat) by (apply M; left; reflexivity).
    destruct (run_entries _ ops P) as [_ RE]. destruct (run_fonts _ ops P) as [_ RF].
    cbn [compile_all]. rewrite (RE e He). unfold entry_is.
    rewrite (RF _ (parent_made _ ops e P He)). cbn [fn_ctx font_is].
    destruct W as [Wi Wd]. unfold entry_compile. cbn [e_data e_id]. rewrite Wi.
    assert (Fr : forall x, e_id x = Some (fst p) -> e_data x = Raw (snd p) -> e_cache x = None ->
              exists x', entry_header x = (x', Ok (firstn (List.length (frame (fst p) (snd p)) - List.length (snd p)) (frame (fst p) (snd p)))) /\
                @e_data D x' = Raw (snd p) /\
                firstn (List.length (frame (fst p) (snd p)) - List.length (snd p)) (frame (fst p) (snd p)) ++ snd p = frame (fst p) (snd p)).
    { intros x X1 X2 X3. destruct (compute_header_frame x (fst p) (snd p) X1 X2) as (h & E & Hh); [exact Fp|].
      unfold entry_header. rewrite X3, E. rewrite <- Hh, app_length.
      replace (List.length h + List.length (snd p) - List.length (snd p))%nat with (List.length h) by lia.
      rewrite firstn_app, firstn_all, Nat.sub_diag. cbn [firstn]. rewrite app_nil_r. eexists. split; [reflexivity|].
      cbn. auto. }
    destruct (data_said e ops) as [d|x|].
    + subst d. rewrite C. eexists. split; [reflexivity|].
      cbn [write_entries]. destruct (Fr (mkEntry (Some (fst p)) (Raw (snd p)) None)) as (x' & E & Ed & Ef); auto.
      rewrite E, Ed, W2. eexists. rewrite app_assoc, Ef. reflexivity.
    + destruct Wd as (comp & -> & E). rewrite E. rewrite C. eexists. split; [reflexivity|].
      cbn [write_entries].
      change (set_data (Raw (snd p)) (mkEntry (Some (fst p)) (Dec x) None))
        with (mkEntry (Some (fst p)) (@Raw D (snd p)) None).
      destruct (Fr (mkEntry (Some (fst p)) (Raw (snd p)) None)) as (x' & E' & Ed & Ef); auto.
      rewrite E', Ed, W2. eexists. rewrite app_assoc, Ef. reflexivity.
    + destruct Wd as [-> Wp]. rewrite C. eexists. split; [reflexivity|].
      cbn [write_entries]. unfold framable in Fp. rewrite Wp in Fr, Fp.
      destruct (compute_header_frame (mkEntry (Some (fst p)) (@Raw D []) None) (fst p) []) as (h & Eh & Hh); auto.
      assert (E : entry_header (mkEntry (Some (fst p)) (@NoData D) None) =
                  (mkEntry (Some (fst p)) NoData (Some h), Ok h)).
      { unfold entry_header. cbn [e_cache].
        assert (compute_header (mkEntry (Some (fst p)) (@NoData D) None) = Ok h) as -> by (rewrite <- Eh; reflexivity).
        reflexivity. }
      rewrite E. cbn [e_data]. rewrite W2. eexists. cbn [flat_map]. rewrite Wp, <- Hh, app_nil_r. reflexivity.
Qed.

(** * C103 *)
(** What is written of a font that a program has assembled: the header it has given, and the entries in the order of
    its calls of add_entry, each with its last data, compiled for the number of masters of the font it was added to
    last. *)
Theorem C103_written : forall D (T : codecs D) ops k minor l,
  program ops -> (k < fonts_made ops)%nat ->
  header_said k ops = HDec (fl_header minor) \/ header_said k ops = HRaw (header44 minor) -> 0 <= minor < 256 ->
  Forall2 (to_write T ops) (added k ops) l -> Forall framable l ->
  write_font T (run ops) k = (file_of minor l, Ok tt).
Proof.
  intros D T ops k minor l P Hk Hh Hm W F. unfold write_font.
  destruct (run_fonts _ ops P) as [_ RF]. rewrite (RF k Hk). cbn [fn_header fn_entries font_is].
  assert (header_compile (header_said k ops) = Ok (HRaw (header44 minor))) as ->.
  { destruct Hh as [-> | ->]; cbn [header_compile]; [rewrite compile_header_fl by exact Hm|]; reflexivity. }
  destruct (compile_all_is _ T ops P _ _ (fun e => added_made _ ops k e P) W F) as (es' & -> & es2 & ->).
  reflexivity.
Qed.

(** and it is read back, if the last entry and no other is the end of the file *)
Theorem C103_read : forall D (T : codecs D) ops k minor l c' ds,
  program ops -> (k < fonts_made ops)%nat ->
  header_said k ops = HDec (fl_header minor) \/ header_said k ops = HRaw (header44 minor) -> 0 <= minor < 256 ->
  Forall2 (to_write T ops) (added k ops) l -> Forall framable l ->
  ends_once l -> reads_as T ctx0 l c' ds ->
  forall rest uni fuel, (List.length l <= fuel)%nat ->
  exists w, vfb_read_bytes T fuel (new_vfb [] false uni) (fst (write_font T (run ops) k) ++ rest) = (w, ROk tt rest) /\
    v_header w = HDec (fl_header minor) /\ v_entries w = fresh_entries l ds.
Proof.
  intros D T ops k minor l c' ds P Hk Hh Hm W F E R rest uni fuel Hf.
  rewrite (C103_written _ _ _ _ _ _ P Hk Hh Hm W F). cbn [fst].
  destruct (read_file D T (new_vfb [] false uni) minor l c' ds rest fuel) as (w & Hw); auto.
  exists w. intuition.
Qed.

(** Refuted: a font without header data cannot be written, whatever its entries *)
Theorem C103_header_refuted : forall D (T : codecs D) ops k,
  program ops -> (k < fonts_made ops)%nat ->
  Forall (fun o => match o with OHeader f _ => f <> k | _ => True end) ops ->
  write_font T (run ops) k = ([], Err TypeError).
Proof.
  intros D T ops k P Hk N. unfold write_font.
  destruct (run_fonts _ ops P) as [_ RF]. rewrite (RF k Hk). cbn [fn_header font_is].
  assert (header_said k ops = HNone) as ->; [|reflexivity].
  apply last_said_none. eapply Forall_impl; [|exact N]. intros [] H; cbn in *; auto. unfold if_same.
  destruct (Nat.eqb_spec k font); congruence.
Qed.

(** Adding an entry that is bytes to another font too does not change what is written of a font; *)
Theorem C103_shared_bytes : forall D (T : codecs D) ops k f e minor l,
  program (ops ++ [OAdd f e]) -> f <> k -> (k < fonts_made ops)%nat ->
  header_said k ops = HDec (fl_header minor) \/ header_said k ops = HRaw (header44 minor) -> 0 <= minor < 256 ->
  Forall2 (to_write T ops) (added k ops) l -> Forall framable l ->
  (exists d, data_said e ops = Raw d) ->
  write_font T (run (ops ++ [OAdd f e])) k = write_font T (run ops) k.
Proof.
  intros D T ops k f e minor l P N Hk Hh Hm W F [d Hd].
  destruct (program_snoc _ _ _ P) as [P' U].
  rewrite (C103_written _ T ops k minor l P' Hk Hh Hm W F).
  apply C103_written; auto.
  - rewrite fonts_made_app. lia.
  - unfold header_said in *. rewrite last_said_snoc. exact Hh.
  - unfold added. rewrite flat_map_app. cbn [flat_map].
    destruct (Nat.eqb_spec k f); [congruence|]. rewrite app_nil_r. fold (added k ops).
    assert (M : forall x, In x (added k ops) -> (x < List.length (entries_made ops))%nat)
      by (intros x; apply added_made; exact P').
    assert (Id : forall x, (x < List.length (entries_made ops))%nat ->
              id_said x (ops ++ [OAdd f e]) = id_said x ops /\ data_said x (ops ++ [OAdd f e]) = data_said x ops /\
              (x <> e -> parent_said x (ops ++ [OAdd f e]) = parent_said x ops)).
    { intros x Hx. unfold id_said, data_said, parent_said. rewrite !last_said_snoc, entries_made_app.
      rewrite nth_error_app1 by exact Hx. repeat split. intros Nx. unfold if_same.
      destruct (Nat.eqb_spec x e); [congruence|reflexivity]. }
    assert (Ms : forall y, masters_said y (ops ++ [OAdd f e]) = masters_said y ops).
    { intros y. unfold masters_said. rewrite last_said_snoc. reflexivity. }
    revert M. clear Hh Hk F. induction W as [|x p xs l Wx W IH]; intros M; constructor.
    + destruct (Id x) as (I1 & I2 & I3); [apply M; left; reflexivity|].
      unfold to_write in *. rewrite I1, I2. destruct Wx as [A B]. split; [exact A|].
      destruct (Nat.eq_dec x e) as [->|Nx].
      * rewrite Hd in *. exact B.
      * rewrite (I3 Nx), Ms. exact B.
    + apply IH. intros y Hy. apply M. right. exact Hy.
Qed.

(** but one that is not, is then compiled for the masters of the other font. *)
(** two fonts with one and with two masters, and the anchors of a glyph of the first *)
Definition two_fonts : list (op value) :=
  [ONew; OHeader 0 (HDec (fl_header 0)); OMasters 0 1; ONew; OHeader 1 (HDec (fl_header 0)); OMasters 1 2;
   OEntry 0 2029 (Dec (DAnchors [MMAnchor [100] [200]])); OAdd 0 0; OEntry 0 2 (Raw []); OAdd 0 1].
Theorem C103_shared_refuted : forall o,
  write_font (table o) (run two_fonts) 0 = (file_of 0 [(2029, [140; 140; 239; 247; 92]); (2, [])], Ok tt) /\
  write_font (table o) (run (two_fonts ++ [OAdd 1 0])) 0 = ([], Err IndexError).
Proof. intros o. split; vm_compute; reflexivity. Qed.

(** Refuted: the number of masters is not taken from the Master Count entry (1503) of the font that is assembled,
    so the anchors are written without positions unless the program also sets [num_masters]. *)
Definition counted : list (op value) :=
  [ONew; OHeader 0 (HDec (fl_header 0)); OEntry 0 1503 (Dec (DInt 1)); OAdd 0 0;
   OEntry 0 2029 (Dec (DAnchors [MMAnchor [100] [200]])); OAdd 0 1; OEntry 0 2 (Raw []); OAdd 0 2].
Theorem C103_masters_refuted : forall o,
  write_font (table o) (run counted) 0 = (file_of 0 [(1503, [1; 0]); (2029, [140; 139]); (2, [])], Ok tt) /\
  cd_parse (table o) 2029 (mkCtx 1 0 0 MacOS) [140; 139] = Ok (DAnchors [MMAnchor [] []]).
Proof. intros o. split; vm_compute; reflexivity. Qed.

(** ** The hypotheses are met *)
Lemma two_fonts_program : program two_fonts.
Proof.
  intros b o a E. unfold two_fonts in E.
  do 11 (destruct b as [|? b]; [inversion E; subst; cbn; lia || (cbn; auto; lia)|inversion E; subst; clear E;
    match goal with H : _ = b ++ _ |- _ => rename H into E end]).
Qed.
Example C103_ex : forall o,
  program two_fonts /\ (0 < fonts_made two_fonts)%nat /\ header_said 0 two_fonts = HDec (fl_header 0) /\
  Forall2 (to_write (table o) two_fonts) (added 0 two_fonts) [(2029, [140; 140; 239; 247; 92]); (2, [])] /\
  ends_once [(2029, [140; 140; 239; 247; 92]); (2, [])].
Proof.
  intros o. split; [apply two_fonts_program|]. split; [cbn; lia|]. split; [reflexivity|]. split.
  - constructor; [|repeat constructor]. split; [reflexivity|].
    exists (on_value GlyphAnchorsCompiler). split; [reflexivity|vm_compute; reflexivity].
  - eexists [_], []. split; [reflexivity|]. cbn. lia.
Qed.

Print Assumptions C103_written.
Print Assumptions C103_read.
Print Assumptions C103_header_refuted.
Print Assumptions C103_shared_bytes.
Print Assumptions C103_shared_refuted.
Print Assumptions C103_masters_refuted.
