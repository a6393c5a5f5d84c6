(** utf8_lossy replaces maximal subparts. *)
From Coq Require Import Ascii String NArith ZArith Lia Bool List ZifyBool ZifyNat ZifyN.
From Verif Require Import Base S_Utf8 P_Base S_Huffman S_Hpack S_HpackAll.
Import ListNotations.
Local Open Scope N_scope.
Ltac Zify.zify_post_hook ::= Z.div_mod_to_equations.

(** ** The octets of a character *)
Inductive shape : bytes -> Prop :=
| sh1 b : b < 128 -> shape [b]
| sh2 b0 b1 : is_lead2 b0 = true -> is_cont b1 = true -> shape [b0; b1]
| sh3 b0 b1 b2 : is_lead3 b0 = true -> snd3_ok b0 b1 = true -> is_cont b2 = true -> shape [b0; b1; b2]
| sh4 b0 b1 b2 b3 : is_lead4 b0 = true -> snd4_ok b0 b1 = true -> is_cont b2 = true -> is_cont b3 = true -> shape [b0; b1; b2; b3].
Lemma lead3_not2 b : is_lead3 b = true -> is_lead2 b = false /\ (b <? 128) = false.
Proof. unfold is_lead3, is_lead2. lia. Qed.
Lemma lead4_not3 b : is_lead4 b = true -> is_lead2 b = false /\ is_lead3 b = false /\ (b <? 128) = false.
Proof. unfold is_lead3, is_lead2, is_lead4. lia. Qed.
Lemma lead2_not b : is_lead2 b = true -> (b <? 128) = false.
Proof. unfold is_lead2. lia. Qed.
Lemma shape_valid l : shape l -> utf8_valid l = true.
Proof.
  intros [b H|b0 b1 H0 H1|b0 b1 b2 H0 H1 H2|b0 b1 b2 b3 H0 H1 H2 H3]; cbn [utf8_valid].
  - rewrite (proj2 (N.ltb_lt _ _) H). reflexivity.
  - rewrite (lead2_not _ H0), H0, H1. reflexivity.
  - destruct (lead3_not2 _ H0) as [-> ->]. rewrite H0, H1, H2. reflexivity.
  - destruct (lead4_not3 _ H0) as (-> & -> & ->). rewrite H0, H1, H2, H3. reflexivity.
Qed.
Lemma enc_shape c : scalar c -> shape (utf8_enc c).
Proof.
  intros S. pose proof (utf8_valid_enc c [] S) as V. rewrite app_nil_r in V. cbn [utf8_valid] in V.
  unfold utf8_enc in *. destruct (N.ltb_spec c 128) as [L|L]; [constructor; exact L|].
  unfold scalar in S. destruct (N.ltb_spec c 2048) as [L2|L2]; [|destruct (N.ltb_spec c 65536) as [L3|L3]]; cbn [utf8_valid] in V.
  - assert (A : is_lead2 (192 + c / 64) = true) by (unfold is_lead2; lia). rewrite (lead2_not _ A), A in V. apply andb_true_iff in V as [V _]. constructor; assumption.
  - assert (A : is_lead3 (224 + c / 4096) = true) by (unfold is_lead3; lia). destruct (lead3_not2 _ A) as [E1 E2]. rewrite E1, E2, A in V.
    apply andb_true_iff in V as [V _]. apply andb_true_iff in V as [V1 V2]. constructor; assumption.
  - assert (A : is_lead4 (240 + c / 262144) = true) by (unfold is_lead4; lia). destruct (lead4_not3 _ A) as (E1 & E2 & E3). rewrite E1, E2, E3, A in V.
    apply andb_true_iff in V as [V _]. apply andb_true_iff in V as [V V3]. apply andb_true_iff in V as [V1 V2]. constructor; assumption.
Qed.
Lemma shape_enc l : shape l -> exists c, scalar c /\ utf8_enc c = l.
Proof.
  intros H. pose proof (shape_valid _ H) as V. assert (NE : l <> []) by (destruct H; discriminate).
  destruct (utf8_valid_step l V NE) as (c & r & S & E & Vr). exists c. split; [exact S|].
  destruct r as [|x r]; [rewrite app_nil_r in E; congruence|]. exfalso. pose proof (enc_shape c S) as K.
  destruct H as [b H|b0 b1 H0 H1|b0 b1 b2 H0 H1 H2|b0 b1 b2 b3 H0 H1 H2 H3];
    destruct K as [d K|d0 d1 K0 K1|d0 d1 d2 K0 K1 K2|d0 d1 d2 d3 K0 K1 K2 K3]; cbn [app] in E; try discriminate E; injection E; intros; subst.
  all: unfold is_lead2, is_lead3, is_lead4 in *; lia.
Qed.
(** Beginnings of characters. *)
Lemma begins_shape x : begins x <-> exists y, shape (x ++ y).
Proof.
  split.
  - intros (c & y & S & E). exists y. rewrite <- E. apply enc_shape, S.
  - intros (y & H). destruct (shape_enc _ H) as (c & S & E). exists c, y. auto.
Qed.
Definition lead (b : N) : bool := (b <? 128) || is_lead2 b || is_lead3 b || is_lead4 b.
Lemma cont_128 : is_cont 128 = true. Proof. reflexivity. Qed.
Lemma snd3_some b0 : is_lead3 b0 = true -> exists b1, snd3_ok b0 b1 = true.
Proof. intros H. unfold snd3_ok. destruct (b0 =? 224); [exists 160; reflexivity|]. exists 128. destruct (b0 =? 237); reflexivity. Qed.
Lemma snd4_some b0 : is_lead4 b0 = true -> exists b1, snd4_ok b0 b1 = true.
Proof. intros H. unfold snd4_ok. destruct (b0 =? 240); [exists 144; reflexivity|]. exists 128. destruct (b0 =? 244); reflexivity. Qed.
Lemma begins1 b : begins [b] <-> lead b = true.
Proof.
  rewrite begins_shape. unfold lead. split.
  - intros (y & H). cbn [app] in H. inversion H; subst; rewrite ?orb_true_iff; try tauto. left. left. left. apply N.ltb_lt. assumption.
  - intros H. rewrite !orb_true_iff in H. destruct H as [[[H|H]|H]|H].
    + exists []. constructor. apply N.ltb_lt, H.
    + exists [128]. constructor; [exact H|reflexivity].
    + destruct (snd3_some b H) as (b1 & E). exists [b1; 128]. constructor; [exact H|exact E|reflexivity].
    + destruct (snd4_some b H) as (b1 & E). exists [b1; 128; 128]. constructor; [exact H|exact E|reflexivity..].
Qed.
Lemma begins2 a b : begins [a; b] <-> (is_lead2 a = true /\ is_cont b = true) \/ (is_lead3 a = true /\ snd3_ok a b = true) \/ (is_lead4 a = true /\ snd4_ok a b = true).
Proof.
  rewrite begins_shape. split.
  - intros (y & H). cbn [app] in H. inversion H; subst; tauto.
  - intros [[H1 H2]|[[H1 H2]|[H1 H2]]].
    + exists []. constructor; assumption.
    + exists [128]. constructor; [assumption..|reflexivity].
    + exists [128; 128]. constructor; [assumption..|reflexivity|reflexivity].
Qed.
Lemma begins3 a b c : begins [a; b; c] <-> (is_lead3 a = true /\ snd3_ok a b = true /\ is_cont c = true) \/ (is_lead4 a = true /\ snd4_ok a b = true /\ is_cont c = true).
Proof.
  rewrite begins_shape. split.
  - intros (y & H). cbn [app] in H. inversion H; subst; tauto.
  - intros [(H1 & H2 & H3)|(H1 & H2 & H3)].
    + exists []. constructor; assumption.
    + exists [128]. constructor; [assumption..|reflexivity].
Qed.
Lemma begins4 a b c d : begins [a; b; c; d] <-> is_lead4 a = true /\ snd4_ok a b = true /\ is_cont c = true /\ is_cont d = true.
Proof.
  rewrite begins_shape. split.
  - intros (y & H). cbn [app] in H. inversion H; subst; tauto.
  - intros (H1 & H2 & H3 & H4). exists []. constructor; assumption.
Qed.
Lemma no_char l : (forall y r, shape y -> l <> y ++ r) -> forall c r, scalar c -> l <> utf8_enc c ++ r.
Proof. intros H c r S. apply H, enc_shape, S. Qed.
Lemma char_step y l s : shape y -> lossy l s -> lossy (y ++ l) (y ++ s).
Proof. intros H K. destruct (shape_enc _ H) as (c & S & <-). constructor; assumption. Qed.
Lemma repl_enc : utf8_enc 0xFFFD = repl. Proof. reflexivity. Qed.
Ltac leads := unfold lead, is_lead2, is_lead3, is_lead4 in *; try lia.
Lemma broken_step a l s : broken a l -> lossy l s -> lossy (a ++ l) (repl ++ s).
Proof. rewrite <- repl_enc. apply lo_broken. Qed.
Lemma broken1 b l : (b <? 128) = false ->
  (is_lead2 b = true -> forall x r, l = x :: r -> is_cont x = false) ->
  (is_lead3 b = true -> forall x r, l = x :: r -> snd3_ok b x = false) ->
  (is_lead4 b = true -> forall x r, l = x :: r -> snd4_ok b x = false) -> broken [b] l.
Proof.
  intros H0 H2 H3 H4. split; [|split].
  - apply no_char. intros y r H E. destruct H as [d K|d0 d1 K0 K1|d0 d1 d2 K0 K1 K2|d0 d1 d2 d3 K0 K1 K2 K3]; cbn [app] in E; injection E; intros; subst.
    + lia.
    + specialize (H2 K0 _ _ eq_refl). congruence.
    + specialize (H3 K0 _ _ eq_refl). congruence.
    + specialize (H4 K0 _ _ eq_refl). congruence.
  - left. reflexivity.
  - intros x r -> K. cbn [app] in K. apply begins2 in K as [[K1 K2]|[[K1 K2]|[K1 K2]]].
    + specialize (H2 K1 _ _ eq_refl). congruence.
    + specialize (H3 K1 _ _ eq_refl). congruence.
    + specialize (H4 K1 _ _ eq_refl). congruence.
Qed.
Lemma broken2 b0 b1 l : (is_lead3 b0 = true /\ snd3_ok b0 b1 = true) \/ (is_lead4 b0 = true /\ snd4_ok b0 b1 = true) ->
  (forall x r, l = x :: r -> is_cont x = false) -> broken [b0; b1] l.
Proof.
  intros H0 H2. split; [|split].
  - apply no_char. intros y r H E. destruct H as [d K|d0 d1 K0 K1|d0 d1 d2 K0 K1 K2|d0 d1 d2 d3 K0 K1 K2 K3]; cbn [app] in E; injection E; intros; subst.
    + destruct H0 as [[A _]|[A _]]; [apply lead3_not2 in A as [_ A]|apply lead4_not3 in A as (_ & _ & A)]; lia.
    + destruct H0 as [[A _]|[A _]]; [apply lead3_not2 in A as [A _]|apply lead4_not3 in A as (A & _ & _)]; congruence.
    + specialize (H2 _ _ eq_refl). congruence.
    + specialize (H2 _ _ eq_refl). congruence.
  - right. split; [discriminate|]. apply begins2. tauto.
  - intros x r -> K. cbn [app] in K. specialize (H2 _ _ eq_refl). apply begins3 in K as [(_ & _ & K)|(_ & _ & K)]; congruence.
Qed.
Lemma broken3 b0 b1 b2 l : is_lead4 b0 = true -> snd4_ok b0 b1 = true -> is_cont b2 = true -> (forall x r, l = x :: r -> is_cont x = false) -> broken [b0; b1; b2] l.
Proof.
  intros A1 A2 A3 H2. destruct (lead4_not3 _ A1) as (B1 & B2 & B3). split; [|split].
  - apply no_char. intros y r H E. destruct H as [d K|d0 d1 K0 K1|d0 d1 d2 K0 K1 K2|d0 d1 d2 d3 K0 K1 K2 K3]; cbn [app] in E; injection E; intros; subst.
    + lia.
    + congruence.
    + congruence.
    + specialize (H2 _ _ eq_refl). congruence.
  - right. split; [discriminate|]. apply begins3. tauto.
  - intros x r -> K. cbn [app] in K. specialize (H2 _ _ eq_refl). apply begins4 in K as (_ & _ & _ & K). congruence.
Qed.
Lemma lossy_spec l : lossy l (utf8_lossy l).
Proof.
  remember (length l) as n eqn:En. revert l En. induction n as [n IH] using lt_wf_ind. intros l En. subst n.
  assert (IH' : forall r, (length r < length l)%nat -> lossy r (utf8_lossy r)) by (intros r L; exact (IH _ L r eq_refl)). clear IH.
  destruct l as [|b0 l1]; [constructor|]. cbn [utf8_lossy].
  destruct (b0 <? 128) eqn:A.
  { apply (char_step [b0]); [constructor; apply N.ltb_lt, A|]. apply IH'. cbn [length]. lia. }
  destruct (is_lead2 b0) eqn:L2.
  { destruct l1 as [|b1 l2].
    - rewrite <- (app_nil_r repl). apply (broken_step [b0] []); [|constructor]. apply broken1; [exact A|..]; intros; discriminate.
    - destruct (is_cont b1) eqn:C1.
      + apply (char_step [b0; b1]); [constructor; assumption|]. apply IH'. cbn [length]. lia.
      + apply (broken_step [b0] (b1 :: l2)); [|apply IH'; cbn [length]; lia]. apply broken1; [exact A|..]; intros K x r E; injection E as <- _; [exact C1|leads..]. }
  destruct (is_lead3 b0) eqn:L3.
  { destruct l1 as [|b1 l2].
    - rewrite <- (app_nil_r repl). apply (broken_step [b0] []); [|constructor]. apply broken1; [exact A|..]; intros; discriminate.
    - destruct (snd3_ok b0 b1) eqn:C1.
      + destruct l2 as [|b2 l3].
        * rewrite <- (app_nil_r repl). apply (broken_step [b0; b1] []); [|constructor]. apply broken2; [left; split; assumption|discriminate].
        * destruct (is_cont b2) eqn:C2.
          -- apply (char_step [b0; b1; b2]); [constructor; assumption|]. apply IH'. cbn [length]. lia.
          -- apply (broken_step [b0; b1] (b2 :: l3)); [|apply IH'; cbn [length]; lia]. apply broken2; [left; split; assumption|]. intros x r E; injection E as <- _; exact C2.
      + apply (broken_step [b0] (b1 :: l2)); [|apply IH'; cbn [length]; lia]. apply broken1; [exact A|..]; intros K x r E; injection E as <- _; [congruence|exact C1|leads]. }
  destruct (is_lead4 b0) eqn:L4.
  { destruct l1 as [|b1 l2].
    - rewrite <- (app_nil_r repl). apply (broken_step [b0] []); [|constructor]. apply broken1; [exact A|..]; intros; discriminate.
    - destruct (snd4_ok b0 b1) eqn:C1.
      + destruct l2 as [|b2 l3].
        * rewrite <- (app_nil_r repl). apply (broken_step [b0; b1] []); [|constructor]. apply broken2; [right; split; assumption|discriminate].
        * destruct (is_cont b2) eqn:C2.
          -- destruct l3 as [|b3 l4].
             ++ rewrite <- (app_nil_r repl). apply (broken_step [b0; b1; b2] []); [|constructor]. apply broken3; [assumption..|discriminate].
             ++ destruct (is_cont b3) eqn:C3.
                ** apply (char_step [b0; b1; b2; b3]); [constructor; assumption|]. apply IH'. cbn [length]. lia.
                ** apply (broken_step [b0; b1; b2] (b3 :: l4)); [|apply IH'; cbn [length]; lia]. apply broken3; [assumption..|]. intros x r E; injection E as <- _; exact C3.
          -- apply (broken_step [b0; b1] (b2 :: l3)); [|apply IH'; cbn [length]; lia]. apply broken2; [right; split; assumption|]. intros x r E; injection E as <- _; exact C2.
      + apply (broken_step [b0] (b1 :: l2)); [|apply IH'; cbn [length]; lia]. apply broken1; [exact A|..]; intros K x r E; injection E as <- _; [congruence|congruence|exact C1]. }
  apply (broken_step [b0] l1); [|apply IH'; cbn [length]; lia]. apply broken1; [exact A|..]; intros K; congruence.
Qed.
(** The relation is a function. *)
Lemma enc_prefix c d x y : scalar c -> scalar d -> utf8_enc c ++ x = utf8_enc d ++ y -> utf8_enc c = utf8_enc d /\ x = y.
Proof.
  intros C D E. apply enc_shape in C, D. revert E. generalize (utf8_enc c) (utf8_enc d) C D. intros u v U V E.
  destruct U as [b U|b0 b1 U0 U1|b0 b1 b2 U0 U1 U2|b0 b1 b2 b3 U0 U1 U2 U3];
    destruct V as [d' K|d0 d1 K0 K1|d0 d1 d2 K0 K1 K2|d0 d1 d2 d3 K0 K1 K2 K3]; cbn [app] in E; injection E; intros; subst; try (exfalso; leads; fail); split; reflexivity.
Qed.
Lemma begins_prefix a b : begins (a ++ b) -> begins a.
Proof. intros (c & y & S & E). exists c, (b ++ y). rewrite app_assoc. auto. Qed.
Lemma broken_longer a l w m : broken a l -> broken (a ++ w) m -> a ++ l = (a ++ w) ++ m -> w = [].
Proof.
  intros (A1 & A2 & A3) (B1 & B2 & B3) E. destruct w as [|b w]; [reflexivity|]. exfalso.
  rewrite <- app_assoc in E. apply app_inv_head in E. cbn [app] in E.
  apply (A3 b (w ++ m) E). destruct B2 as [B2|[_ B2]].
  - rewrite app_length in B2. cbn [length] in B2. destruct a as [|x a]; [|cbn [length] in B2; lia]. destruct A2 as [A2|[A2 _]]; [discriminate|congruence].
  - apply (begins_prefix _ w). rewrite <- app_assoc. exact B2.
Qed.
Lemma lossy_fun l s : lossy l s -> forall t, lossy l t -> s = t.
Proof.
  induction 1 as [|c l s S H IH|a l s B H IH]; intros t K.
  - remember [] as z eqn:Ez. destruct K as [|d m u D K|a m u B K]; [reflexivity| |].
    + apply app_eq_nil in Ez as [E _]. pose proof (utf8_enc_length d) as L. rewrite E in L. cbn in L. lia.
    + apply app_eq_nil in Ez as [-> _]. destruct B as (_ & [B|[B _]] & _); [discriminate|congruence].
  - remember (utf8_enc c ++ l) as z eqn:Ez. destruct K as [|d m u D K|a m u B K].
    + symmetry in Ez. apply app_eq_nil in Ez as [E _]. pose proof (utf8_enc_length c) as L. rewrite E in L. cbn in L. lia.
    + destruct (enc_prefix d c m l D S Ez) as [E ->]. rewrite E. f_equal. apply IH, K.
    + destruct B as (B & _). destruct (B c l S Ez).
  - remember (a ++ l) as z eqn:Ez. destruct K as [|d m u D K|b m u B' K].
    + symmetry in Ez. apply app_eq_nil in Ez as [-> _]. destruct B as (_ & [B|[B _]] & _); [discriminate|congruence].
    + destruct B as (B & _). destruct (B d m D (eq_sym Ez)).
    + f_equal. apply IH. assert (Q : b = a).
      { destruct (app_eq_app _ _ _ _ Ez) as (w & [[-> Ew]|[-> Ew]]).
        - rewrite (broken_longer a l w m B B') by (rewrite Ew, <- app_assoc; reflexivity). apply app_nil_r.
        - rewrite (broken_longer b m w l B' B) by (rewrite Ew, <- app_assoc; reflexivity). symmetry. apply app_nil_r. }
      subst b. apply app_inv_head in Ez. subst m. exact K.
Qed.
Lemma lossy_iff l s : lossy l s <-> s = utf8_lossy l.
Proof. split; [intros H; exact (lossy_fun l s H _ (lossy_spec l))|intros ->; apply lossy_spec]. Qed.
