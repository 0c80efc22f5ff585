(** Proofs about the integrated build: entries that the parsers of the table make have the types that the build
    expects *)
From Coq Require Import String.
From Verif Require Import Base Lib M_Stream M_Py M_Helpers M_Simple M_Text M_TrueType M_Bitmap M_Glyph M_Options M_Container M_Table.
From Verif Require Import M_Build P_Helpers S_Entry S_Build.
Local Open Scope list_scope.

Lemma plain_inv : forall A (inj : A -> value) (r : rd A) b v, run_parser (plain inj r) b = Ok v -> exists x, v = inj x.
Proof.
  intros A inj r b v H. unfold run_parser, plain, rbind, ret in H. destruct (r b) as [x b'|e b']; [|discriminate]. destruct b'; [|discriminate].
  apply Ok_inj in H. exists x. congruence.
Qed.
Lemma zones_inv : forall b v, run_parser (plain DZones parse_tt_zones) b = Ok v -> exists t u, v = DZones (TTZones (Some t) (Some u)).
Proof.
  intros b v H. unfold run_parser, plain, parse_tt_zones, rbind, ret in H.
  repeat match type of H with
         | context [match ?m with ROk _ _ => _ | RErr _ _ => _ end] => lazymatch m with context [match _ with ROk _ _ => _ | RErr _ _ => _ end] => fail | _ => destruct m; [|discriminate] end
         end.
  match type of H with match ?r with [] => _ | _ => _ end = _ => destruct r; [|discriminate] end.
  apply Ok_inj in H. subst v. do 2 eexists. reflexivity.
Qed.
Lemma hex_inv : forall b v, run_parser (plain DStr parse_hex) b = Ok v -> v = DStr (hexStr b).
Proof. intros b v H. unfold run_parser, plain, parse_hex, rbind, ret, read_all in H. apply Ok_inj in H. congruence. Qed.
Definition type_keys : list Z :=
  [1034; 1048; 1267; 1272; 1274; 1275; 1604; 1503; 1513; 1530; 1531; 1532; 1533; 1534; 1535; 1030; 1031;
   1261; 1262; 1263; 1277; 1504; 1514; 1250; 1253; 1515; 1268; 1269; 1524; 2001; 2018; 2011; 2028; 1138; 1254; 1255;
   1264; 1265; 1273; 1276; 1294; 1296; 1505; 1516; 1523; 1536; 2026; 2012; 2015; 2017; 2007; 2008; 2009; 2013; 2029; 2031] ++ info_keys.
Lemma no_type : forall k d, existsb (Z.eqb k) type_keys = false -> type_of_key k d = true.
Proof.
  intros k d H. unfold type_keys in H. rewrite existsb_app in H. apply orb_false_iff in H. destruct H as [H I].
  unfold type_of_key. rewrite I. cbn [existsb] in *. repeat (apply orb_false_iff in H; destruct H as [? H]).
  repeat match goal with E : (k =? _) = false |- _ => rewrite E; clear E end. reflexivity.
Qed.
Lemma parsed_typed : forall o k c b v, bytes_ok b -> cd_parse (table o) k c b = Ok v -> typed (k, Some v).
Proof.
  intros o k c b v Hb H. unfold table in H. cbn [cd_parse] in H. unfold typed. cbn [fst snd].
  assert (X : In k [1261; 1262; 1263] -> exists b', bytes_ok b' /\ v = DStr (hexStr b')).
  { intros I. exists b. split; [exact Hb|]. apply hex_inv. rewrite <- H.
    destruct I as [<-|[<-|[<-|[]]]]; reflexivity. }
  split; [|exact X]. clear X.
  destruct (existsb (Z.eqb k) type_keys) eqn:K; [|apply no_type; exact K].
  apply existsb_exists in K. destruct K as (j & I & J). apply Z.eqb_eq in J. subst j.
  unfold type_keys, info_keys in I. cbn [app In] in I.
  repeat (destruct I as [<-|I];
    [match type of H with run_parser (parser_of o ?k c) b = _ =>
       let p := eval vm_compute in k in
       let q := eval cbv beta iota zeta delta [parser_of row aget parser_classes Z.eqb Pos.eqb] in (parser_of o p) in
       change (run_parser (q c) b = Ok v) in H;
       let q' := eval hnf in q in
       change (run_parser (q' c) b = Ok v) in H; cbv beta in H
     end;
     first [apply zones_inv in H; destruct H as (t & u & ->); reflexivity
           |apply plain_inv in H; destruct H as (x & ->); try (destruct x); reflexivity]|]).
  destruct I.
Qed.
