(** C89, the renaming of points after the commands have been put into the lib: it never fails. *)
From Coq Require Import String.
From Verif Require Import Base M_Py M_Text M_Glyph M_Labels M_TrueType M_Tth M_Rename S_Labels S_Tth Lib P_Glyph P_Labels P_Tth.
Local Open Scope list_scope.

Definition point_attrs : list pystr := [py "point"; py "point1"; py "point2"].
(** the name of a point after the renaming *)
Definition renamed_to (renames : list (pystr * pystr)) (v : tval) : tval :=
  match v with
  | TStr s => match aget str_eqb s renames with Some n => TStr n | None => TStr s end
  | v => v
  end.
(** [e] is [d], but for the names of points *)
Definition renamed (renames : list (pystr * pystr)) (d e : command) : Prop :=
  forall key, aget str_eqb key e =
    if existsb (str_eqb key) point_attrs then option_map (renamed_to renames) (aget str_eqb key d) else aget str_eqb key d.

Definition has (k : pystr) (d : command) : Prop := exists v, aget str_eqb k d = Some v.
Lemma aget_put : forall k k' (v : tval) d, aget str_eqb k (aset str_eqb k' v d) = if str_eqb k k' then Some v else aget str_eqb k d.
Proof. exact (aget_aset str_eqb str_eqb_eq). Qed.
Lemma has_aset : forall k k' v d, has k d -> has k (aset str_eqb k' v d).
Proof. intros k k' v d [w H]. unfold has. rewrite aget_put. destruct (str_eqb k k'); eauto. Qed.
Lemma has_same : forall k v d, has k (aset str_eqb k v d).
Proof. intros k v d. unfold has. rewrite aget_put, str_eqb_refl. eauto. Qed.

(** the points of a code *)
Definition points_of_code (code : pystr) : list pystr :=
  if is_one code [py "singleh"; py "singlev"; py "doubleh"; py "doublev"] then [py "point1"; py "point2"]
  else if is_one code [py "interpolateh"; py "interpolatev"] then point_attrs
  else [py "point"].
(** a command with a known code and exactly the points of that code *)
Definition shaped (d : command) : Prop :=
  exists code, In code (map snd command_codes) /\ aget str_eqb (py "code") d = Some (TStr code) /\
    forall k, In k point_attrs -> (has k d <-> In k (points_of_code code)).

Section Commands.
  Variable L : Type.
  Variable label : L -> Z -> pystr -> res (tval * L).
  Variable zone : bool -> Z -> res pystr.
  Variable stems : bool -> list pystr.

  (** [d] has the code and of the points those in [ps] *)
  Definition part (code : pystr) (ps : list pystr) (d : command) : Prop :=
    aget str_eqb (py "code") d = Some (TStr code) /\ forall k, In k point_attrs -> (has k d <-> In k ps).
  Lemma part_start : forall code, part code [] [(py "code", TStr code)].
  Proof.
    intros code. split; [reflexivity|]. intros k [<-|[<-|[<-|[]]]]; (split; [intros [v H]; discriminate H|intros []]).
  Qed.
  Lemma part_other : forall code ps d k v, part code ps d -> ~ In k (py "code" :: point_attrs) -> part code ps (aset str_eqb k v d).
  Proof.
    intros code ps d k v [C P] N. assert (X : forall k', In k' (py "code" :: point_attrs) -> str_eqb k' k = false).
    { intros k' I. apply str_eqb_neq. intros ->. contradiction. }
    split.
    - rewrite aget_put, X by (left; reflexivity). exact C.
    - intros k' I. unfold has. rewrite aget_put, X by (right; exact I). exact (P k' I).
  Qed.
  Lemma part_point : forall code ps d k v, part code ps d -> In k point_attrs -> part code (ps ++ [k]) (aset str_eqb k v d).
  Proof.
    intros code ps d k v [C P] I. split.
    - rewrite aget_put. replace (str_eqb (py "code") k) with false; [exact C|]. destruct I as [<-|[<-|[<-|[]]]]; reflexivity.
    - intros k' I'. unfold has. rewrite aget_put. destruct (str_eqb k' k) eqn:E.
      + apply str_eqb_eq in E. subst. split; [intros _; apply in_or_app; right; left; reflexivity|eauto].
      + apply str_eqb_neq in E. rewrite in_app_iff. cbn [In]. specialize (P k' I'). unfold has in P. intuition congruence.
  Qed.
  Lemma point_part : forall i k p a code ps r, part code ps (fst a) -> In k point_attrs -> add_point L label i k p a = Ok r ->
    part code (ps ++ [k]) (fst r).
  Proof.
    intros i k p a code ps r P I E. unfold add_point in E. destruct (aget_res str_eqb p (in_params i)); cbn in E; [|discriminate].
    destruct (label _ _ _) as [[v l]|]; cbn in E; [|discriminate]. injection E as <-. cbn. now apply part_point.
  Qed.
  Ltac other := cbn; let X := fresh in intros X; intuition discriminate.
  Lemma align_part : forall i code ps d, part code ps d -> part code ps (add_align i d).
  Proof.
    intros i code ps d P. unfold add_align. destruct (aget _ _ _); [|exact P]. destruct (_ >? _); [|exact P]. apply part_other; [exact P|other].
  Qed.
  Lemma stem_part_ : forall hor i code ps d r, part code ps d -> add_stem stems hor i d = Ok r -> part code ps r.
  Proof.
    intros hor i code ps d r P E. unfold add_stem in E. destruct (aget _ _ _) as [stem|]; [|injection E as <-; exact P].
    destruct (stem <=? -2); [injection E as <-; apply part_other; [exact P|other]|].
    destruct (stem =? -1); [injection E as <-; exact P|]. destruct (py_index _ _); cbn in E; [|discriminate]. injection E as <-.
    apply part_other; [exact P|other].
  Qed.
  Lemma param_part : forall i k p code ps d r, part code ps d -> ~ In k (py "code" :: point_attrs) -> add_param i k p d = Ok r -> part code ps r.
  Proof.
    intros i k p code ps d r P N E. unfold add_param in E. destruct (aget_res _ _ _); cbn in E; [|discriminate]. injection E as <-. now apply part_other.
  Qed.

  Lemma rthen_ok : forall A B (a : res A) (f : A -> res B) r, rthen a f = Ok r -> exists x, a = Ok x /\ f x = Ok r.
  Proof. intros A B [x|x] f r E; cbn in E; [eauto|discriminate]. Qed.
  Lemma rmap_ok : forall A B (a : res A) (f : A -> B) r, rmap f a = Ok r -> exists x, a = Ok x /\ f x = r.
  Proof. intros A B [x|x] f r E; cbn in E; [injection E; eauto|discriminate]. Qed.

  Ltac inv E := first [apply rthen_ok in E; let x := fresh "x" in let H := fresh "H" in destruct E as (x & H & E)
                      |apply rmap_ok in E; let x := fresh "x" in let H := fresh "H" in destruct E as (x & H & E)].
  Lemma command_shaped : forall st i d st', export_command L label zone stems st i = Ok (d, st') -> shaped d.
  Proof.
    intros st i d st' E. unfold export_command in E. inv E. rename x into code, H into Hc.
    assert (I : In (in_cmd i, code) command_codes).
    { unfold aget_res in Hc. destruct (aget str_eqb (in_cmd i) command_codes) eqn:G; [|discriminate]. injection Hc as ->.
      exact (aget_In str_eqb str_eqb_eq _ _ _ G). }
    assert (S : forall ps, part code ps d -> points_of_code code = ps -> shaped d).
    { intros ps [C P] <-. exists code. split; [change code with (snd (in_cmd i, code)); now apply in_map|]. split; assumption. }
    cbn [command_codes In] in I.
    repeat match type of I with _ \/ _ => destruct I as [I|I] | False => destruct I end; injection I as I <-; rewrite <- I in E; cbv [is_one existsb] in E;
      repeat match type of E with context [str_eqb ?a ?b] => let v := eval vm_compute in (str_eqb a b) in change (str_eqb a b) with v in E end;
      cbn [orb] in E.
    all: eapply S; [|reflexivity].
    all: repeat inv E.
    all: match goal with |- part ?c _ _ => pose proof (part_start c) as P0 end.
    all: injection E as <- <-.
    all: repeat match goal with
         | P : part _ _ ?b, H : add_point _ _ _ _ _ (?b, ?s) = Ok _ |- _ =>
             apply (fun I => point_part _ _ _ (b, s) _ _ _ P I) in H; [|cbn; tauto]
         | P : part _ _ (fst ?a), H : add_point _ _ _ _ _ ?a = Ok _ |- _ =>
             apply (fun I => point_part _ _ _ a _ _ _ P I) in H; [|cbn; tauto]
         | P : part _ _ (fst ?a), H : add_stem _ _ _ (fst ?a) = Ok _ |- _ => apply (stem_part_ _ _ _ _ _ _ P) in H
         | P : part _ _ ?a, H : add_param _ _ _ ?a = Ok _ |- _ =>
             apply (fun N => param_part _ _ _ _ _ _ _ P N) in H; [|other]
         end.
    all: first [assumption|apply align_part; assumption|apply part_other; [assumption|other]].
  Qed.
  Lemma commands_shaped : forall l st ds st', export_commands L label zone stems st l = Ok (ds, st') -> Forall shaped ds.
  Proof.
    induction l as [|i l IH]; intros st ds st' E; cbn [export_commands] in E; [injection E as <- <-; constructor|].
    inv E. destruct x as [d s]. cbn [fst snd] in E. inv E. destruct x as [ds' s']. injection E as <- <-.
    constructor; [exact (command_shaped _ _ _ _ H)|exact (IH _ _ _ H0)].
  Qed.
End Commands.

Lemma point_renamed : forall renames k d, has k d ->
  rename_point renames k d = Ok (match aget str_eqb k d with
                                 | Some (TStr s) => match aget str_eqb s renames with Some n => aset str_eqb k (TStr n) d | None => d end
                                 | _ => d end).
Proof. intros renames k d [v H]. unfold rename_point, aget_res. rewrite H. destruct v; reflexivity. Qed.
Lemma renamed_get : forall renames k d e, rename_point renames k d = Ok e ->
  forall key, aget str_eqb key e = if str_eqb key k then option_map (renamed_to renames) (aget str_eqb key d) else aget str_eqb key d.
Proof.
  intros renames k d e E key. unfold rename_point, aget_res in E. destruct (aget str_eqb k d) as [v|] eqn:G; [|discriminate]. cbn in E. injection E as <-.
  destruct (str_eqb key k) eqn:K.
  - apply str_eqb_eq in K. subst. rewrite G. destruct v; cbn; rewrite ?G; try reflexivity.
    destruct (aget str_eqb s renames); [rewrite aget_put, str_eqb_refl; reflexivity|exact G].
  - destruct v; try reflexivity. destruct (aget str_eqb s renames); [rewrite aget_put, K; reflexivity|reflexivity].
Qed.
Lemma rename_shaped : forall renames d, shaped d -> exists e, rename_command renames d = Ok e /\ renamed renames d e.
Proof.
  intros renames d (code & I & C & P). unfold rename_command, aget_res. rewrite C. cbn [rthen].
  assert (Hm : forall k x y, rename_point renames k x = Ok y -> forall k', has k' x -> has k' y).
  { intros k x y E k' [v H]. unfold has. rewrite (renamed_get _ _ _ _ E), H. destruct (str_eqb k' k); cbn; eauto. }
  assert (R : forall k x, has k x -> exists y, rename_point renames k x = Ok y).
  { intros k x H. rewrite (point_renamed _ _ _ H). eauto. }
  assert (N : forall k, In k point_attrs -> ~ In k (points_of_code code) -> aget str_eqb k d = None).
  { intros k Ik Nk. destruct (aget str_eqb k d) eqn:G; [|reflexivity]. exfalso. apply Nk, P; [exact Ik|]. eexists; exact G. }
  cbn [command_codes map snd In] in I.
  repeat match type of I with _ \/ _ => destruct I as [I|I] | False => destruct I end; subst code; cbv [is_one existsb];
    repeat match goal with |- context [str_eqb (py ?a) (py ?b)] => let v := eval vm_compute in (str_eqb (py a) (py b)) in change (str_eqb (py a) (py b)) with v end;
    cbn [orb].
  all: repeat match goal with
       | |- exists e, rename_point ?r ?k ?x = Ok e /\ _ =>
           let H := fresh "H" in assert (H : has k x) by (repeat (eapply Hm; [eassumption|]); apply P; [cbn; tauto|vm_compute; tauto]);
           let E := fresh "E" in destruct (R k x H) as [? E]; eexists; split; [exact E|]
       | |- context [rthen (rename_point ?r ?k ?x) _] =>
           let H := fresh "H" in assert (H : has k x) by (repeat (eapply Hm; [eassumption|]); apply P; [cbn; tauto|vm_compute; tauto]);
           let E := fresh "E" in destruct (R k x H) as [? E]; rewrite E; cbn [rthen]
       end.
  all: intros key; unfold point_attrs; cbn [existsb]; rewrite ?orb_false_r.
  all: repeat match goal with E : rename_point _ _ ?x = Ok ?y |- context [aget str_eqb ?key ?y] => rewrite (renamed_get _ _ _ _ E) end.
  all: destruct (str_eqb key (py "point")) eqn:K; [apply str_eqb_eq in K; subst key|].
  all: try (destruct (str_eqb key (py "point1")) eqn:K1; [apply str_eqb_eq in K1; subst key|]).
  all: try (destruct (str_eqb key (py "point2")) eqn:K2; [apply str_eqb_eq in K2; subst key|]).
  all: cbn [orb]; try reflexivity.
  all: rewrite ?N by first [cbn; tauto|vm_compute; intuition discriminate]; reflexivity.
Qed.

(** The commands that the export makes of the instructions of a glyph can always be renamed, whatever points were
    joined; each keeps its code and its other attributes, and its points get the new names. *)
Theorem C89_renaming : forall fuel order name s st l commands st' renames,
  glyph_commands fuel order name s st l = Ok (commands, st') ->
  exists out, finalize_labels renames commands = Ok out /\ Forall2 (renamed renames) commands out.
Proof.
  intros fuel order name s st l commands st' renames E. apply commands_shaped in E.
  assert (X : exists out, res_map (rename_command renames) commands = Ok out /\ Forall2 (renamed renames) commands out).
  { induction E as [|d ds Sd F IH]; [exists []; split; [reflexivity|constructor]|].
    destruct (rename_shaped renames d Sd) as (e & Ee & Re). destruct IH as (out & Eo & Ro).
    exists (e :: out). split; [|constructor; assumption]. cbn [res_map]. rewrite Ee. cbn. rewrite Eo. reflexivity. }
  destruct renames as [|r renames]; [|exact X].
  exists commands. split; [reflexivity|]. clear. induction commands as [|d ds IH]; constructor; [|exact IH].
  intros key. destruct (existsb _ _); [|reflexivity]. destruct (aget str_eqb key d) as [[v|v|]|]; reflexivity.
Qed.
(** Two hinted points of a contour are joined. *)
Example C89_renaming_meets : exists commands st' out,
  glyph_commands 2 [py "g"] (py "g") tt_start [(py "g", LGlyph [] 3 [] [])]
    [Instruction (py "AlignH") [(py "pt", 0); (py "align", -1)]; Instruction (py "SingleLinkV") [(py "pt1", 2); (py "pt2", 1); (py "align", 0)]]
    = Ok (commands, st') /\
  finalize_labels [(py "ah01", py "sv01")] commands = Ok out /\
  out = [[(py "code", TStr (py "alignh")); (py "point", TStr (py "sv01"))];
         [(py "code", TStr (py "singlev")); (py "point1", TStr (py "sv01")); (py "point2", TStr (py "sv02")); (py "align", TStr (py "round"))]] /\
  commands <> out.
Proof. do 3 eexists. split; [vm_compute; reflexivity|]. split; [vm_compute; reflexivity|]. split; [reflexivity|]. discriminate. Qed.

Print Assumptions C89_renaming.
