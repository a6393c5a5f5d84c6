(** Lemmas about Base.v. *)
From Coq Require Import Ascii String NArith ZArith Lia Bool List.
From Coq Require Import ZifyBool ZifyNat ZifyN.
From Verif Require Import Base S_Utf8.
Import ListNotations.
Local Open Scope N_scope.

Ltac Zify.zify_post_hook ::= Z.div_mod_to_equations.

Arguments N.add : simpl never.
Arguments N.sub : simpl never.
Arguments N.mul : simpl never.
Arguments N.div : simpl never.
Arguments N.modulo : simpl never.
Arguments N.ltb : simpl never.
Arguments N.leb : simpl never.
Arguments N.eqb : simpl never.
Arguments N.pow : simpl never.
Arguments N.land : simpl never.
Arguments N.lor : simpl never.
Arguments N.lxor : simpl never.
Arguments N.of_nat : simpl never.
Arguments N.to_nat : simpl never.

(** ** Byte sweeps *)
Definition all_bytes : list N := map N.of_nat (seq 0 256).

Lemma all_bytes_in b : b < 256 -> In b all_bytes.
Proof.
  intros H. unfold all_bytes. apply in_map_iff. exists (N.to_nat b).
  split; [lia|]. apply in_seq. lia.
Qed.

Lemma byte_sweep (f : N -> bool) :
  forallb f all_bytes = true -> forall b, b < 256 -> f b = true.
Proof.
  intros H b Hb. rewrite forallb_forall in H. apply H, all_bytes_in, Hb.
Qed.

Lemma byte_sweep2 (f : N -> N -> bool) :
  forallb (fun a => forallb (f a) all_bytes) all_bytes = true ->
  forall a b, a < 256 -> b < 256 -> f a b = true.
Proof.
  intros H a b Ha Hb.
  apply (byte_sweep (f a)); [|exact Hb].
  apply (byte_sweep (fun a => forallb (f a) all_bytes)); assumption.
Qed.

(** ** Equality *)
Lemma beq_refl a : beq a a = true.
Proof. induction a as [|x a IH]; [reflexivity|]. cbn [beq]. rewrite IH, N.eqb_refl. reflexivity. Qed.

Lemma beq_eq a b : beq a b = true <-> a = b.
Proof.
  split.
  - revert b. induction a as [|x a IH]; intros [|y b] H; cbn [beq] in H; try discriminate; [reflexivity|].
    apply andb_true_iff in H as [H1 H2]. apply N.eqb_eq in H1. rewrite (IH b H2). congruence.
  - intros ->. apply beq_refl.
Qed.

Lemma beq_neq a b : beq a b = false <-> a <> b.
Proof.
  split.
  - intros H E. subst. rewrite beq_refl in H. discriminate.
  - intros H. destruct (beq a b) eqn:E; [|reflexivity]. apply beq_eq in E. contradiction.
Qed.

Lemma beq_sym a b : beq a b = beq b a.
Proof.
  destruct (beq a b) eqn:E; symmetry.
  - apply beq_eq in E. subst. apply beq_refl.
  - apply beq_neq. apply beq_neq in E. congruence.
Qed.

Lemma blen_nil : blen [] = 0. Proof. reflexivity. Qed.
Lemma blen_cons x l : blen (x :: l) = 1 + blen l.
Proof. unfold blen. cbn [length]. lia. Qed.
Lemma blen_app a b : blen (a ++ b) = blen a + blen b.
Proof. unfold blen. rewrite app_length. lia. Qed.

Lemma bytes_ok_nil : bytes_ok []. Proof. constructor. Qed.
Lemma bytes_ok_cons x l : bytes_ok (x :: l) <-> x < 256 /\ bytes_ok l.
Proof. unfold bytes_ok. split; [inversion 1; auto | intros [? ?]; constructor; auto]. Qed.
Lemma bytes_ok_app a b : bytes_ok (a ++ b) <-> bytes_ok a /\ bytes_ok b.
Proof. apply Forall_app. Qed.

(** ** take *)
Lemma take_n_app n a b : length a = n -> take_n n (a ++ b) = Some (a, b).
Proof.
  intros <-. unfold take_n. rewrite app_length.
  replace (Nat.leb (length a) (length a + length b)) with true by (symmetry; apply Nat.leb_le; lia).
  rewrite firstn_app, skipn_app, Nat.sub_diag. cbn [firstn skipn].
  rewrite firstn_all, skipn_all, app_nil_r. reflexivity.
Qed.

Lemma take_n_some n l a r : take_n n l = Some (a, r) -> l = a ++ r /\ length a = n.
Proof.
  unfold take_n. destruct (Nat.leb_spec n (length l)) as [H|H]; [|discriminate].
  intros E. injection E as <- <-. split; [symmetry; apply firstn_skipn|].
  rewrite firstn_length. lia.
Qed.

Lemma take_n_none n l : take_n n l = None <-> (length l < n)%nat.
Proof. unfold take_n. destruct (Nat.leb_spec n (length l)); split; intros; try discriminate; try lia. reflexivity. Qed.

Lemma take_N_app n a b : blen a = n -> take_N n (a ++ b) = Some (a, b).
Proof.
  intros <-. unfold take_N. rewrite blen_app.
  replace (blen a <=? blen a + blen b) with true by lia.
  unfold blen at 1 2. rewrite !Nnat.Nat2N.id.
  rewrite firstn_app, skipn_app, Nat.sub_diag. cbn [firstn skipn].
  rewrite firstn_all, skipn_all, app_nil_r. reflexivity.
Qed.

Lemma take_N_some n l a r : take_N n l = Some (a, r) -> l = a ++ r /\ blen a = n.
Proof.
  unfold take_N. destruct (N.leb_spec n (blen l)) as [H|H]; [|discriminate].
  intros E. injection E as <- <-. split; [symmetry; apply firstn_skipn|].
  unfold blen in *. rewrite firstn_length. lia.
Qed.

Lemma take_N_none n l : take_N n l = None <-> blen l < n.
Proof. unfold take_N. destruct (N.leb_spec n (blen l)); split; intros; try discriminate; try lia. reflexivity. Qed.

(** ** Big-endian integers *)
Lemma be_enc_length n v : length (be_enc n v) = n.
Proof. induction n as [|n IH]; cbn [be_enc length]; congruence. Qed.

Lemma be_enc_blen n v : blen (be_enc n v) = N.of_nat n.
Proof. unfold blen. rewrite be_enc_length. reflexivity. Qed.

Lemma be_enc_ok n v : bytes_ok (be_enc n v).
Proof.
  induction n as [|n IH]; cbn [be_enc]; [apply bytes_ok_nil|].
  apply bytes_ok_cons. split; [apply N.mod_lt; lia | exact IH].
Qed.

Lemma be_dec_acc_lin l : forall acc, be_dec_acc acc l = acc * 256 ^ blen l + be_dec l.
Proof.
  unfold be_dec. induction l as [|b l IH]; intros acc; cbn [be_dec_acc].
  - rewrite blen_nil, N.pow_0_r. lia.
  - rewrite (IH (acc * 256 + b)), (IH (0 * 256 + b)), blen_cons.
    rewrite N.pow_add_r, N.pow_1_r. lia.
Qed.

Lemma be_dec_cons b l : be_dec (b :: l) = b * 256 ^ blen l + be_dec l.
Proof. unfold be_dec at 1. cbn [be_dec_acc]. rewrite be_dec_acc_lin. lia. Qed.

Lemma be_dec_nil : be_dec [] = 0. Proof. reflexivity. Qed.

Lemma be_dec_lt l : bytes_ok l -> be_dec l < 256 ^ blen l.
Proof.
  induction l as [|b l IH]; intros H.
  - rewrite blen_nil, N.pow_0_r, be_dec_nil. lia.
  - apply bytes_ok_cons in H as [Hb Hl]. rewrite be_dec_cons, blen_cons, N.pow_add_r, N.pow_1_r.
    specialize (IH Hl). nia.
Qed.

Lemma be_dec_enc n v : be_dec (be_enc n v) = v mod 256 ^ N.of_nat n.
Proof.
  induction n as [|n IH]; cbn [be_enc].
  - change (N.of_nat 0) with 0. rewrite N.pow_0_r, N.mod_1_r. reflexivity.
  - rewrite be_dec_cons, be_enc_blen, IH.
    replace (N.of_nat (S n)) with (N.of_nat n + 1) by lia.
    rewrite N.pow_add_r, N.pow_1_r.
    rewrite N.mod_mul_r by (try apply N.pow_nonzero; lia). lia.
Qed.

Lemma be_dec_enc_small n v : v < 256 ^ N.of_nat n -> be_dec (be_enc n v) = v.
Proof. intros H. rewrite be_dec_enc. apply N.mod_small, H. Qed.

Lemma be_enc_dec l : bytes_ok l -> be_enc (length l) (be_dec l) = l.
Proof.
  induction l as [|b l IH]; intros H; [reflexivity|].
  apply bytes_ok_cons in H as [Hb Hl]. cbn [length be_enc].
  assert (Hlt := be_dec_lt l Hl).
  rewrite be_dec_cons. fold (blen l). f_equal.
  - rewrite N.div_add_l by (apply N.pow_nonzero; lia).
    rewrite (N.div_small (be_dec l)) by exact Hlt. rewrite N.add_0_r. apply N.mod_small, Hb.
  - transitivity (be_enc (length l) (be_dec l)); [|exact (IH Hl)].
    clear IH Hb. remember (be_dec l) as v eqn:Ev. clear Ev.
    assert (G : forall n, (n <= length l)%nat -> be_enc n (b * 256 ^ blen l + v) = be_enc n v).
    { induction n as [|n IHn]; intros Hn; [reflexivity|].
      cbn [be_enc]. rewrite IHn by lia. f_equal.
      replace (blen l) with (N.of_nat n + 1 + (blen l - (N.of_nat n + 1))) by (unfold blen; lia).
      set (k := blen l - (N.of_nat n + 1)). rewrite !N.pow_add_r, N.pow_1_r.
      replace (b * (256 ^ N.of_nat n * 256 * 256 ^ k) + v)
        with ((b * 256 ^ k * 256) * 256 ^ N.of_nat n + v) by lia.
      rewrite N.div_add_l by (apply N.pow_nonzero; lia).
      rewrite N.add_comm, N.mod_add by lia. reflexivity. }
    apply G. lia.
Qed.

Lemma try_get_app n v r : v < 256 ^ N.of_nat n -> try_get n (be_enc n v ++ r) = Ok (v, r).
Proof.
  intros H. unfold try_get. rewrite take_n_app by apply be_enc_length.
  rewrite be_dec_enc_small by exact H. reflexivity.
Qed.

Lemma try_get_1 b r : try_get 1 (b :: r) = Ok (b, r).
Proof. unfold try_get, take_n. cbn [length Nat.leb firstn skipn]. reflexivity. Qed.

Lemma try_get_ok n l v r : try_get n l = Ok (v, r) ->
  exists a, l = a ++ r /\ length a = n /\ v = be_dec a.
Proof.
  unfold try_get. destruct (take_n n l) as [[a r']|] eqn:E; [|discriminate].
  intros H. injection H as <- <-. apply take_n_some in E as [-> Hl]. eauto.
Qed.

Lemma try_get_1_ok l v r : try_get 1 l = Ok (v, r) -> l = v :: r.
Proof.
  intros H. apply try_get_ok in H as (a & -> & Hl & ->).
  destruct a as [|x [|]]; try discriminate. reflexivity.
Qed.

Lemma try_get_cases n l :
  (exists a r, l = a ++ r /\ length a = n /\ try_get n l = Ok (be_dec a, r)) \/
  ((length l < n)%nat /\ try_get n l = Err (EIo UnexpectedEof)).
Proof.
  unfold try_get. destruct (take_n n l) as [[a r]|] eqn:E.
  - left. apply take_n_some in E as [-> Hl]. eauto 6.
  - right. apply take_n_none in E. auto.
Qed.

(** ** UTF-8 *)
Lemma utf8_valid_enc c l : scalar c -> utf8_valid (utf8_enc c ++ l) = utf8_valid l.
Proof.
  intros Hc. unfold scalar in Hc. unfold utf8_enc.
  destruct (N.ltb_spec c 128).
  { cbn [app utf8_valid]. replace (c <? 128) with true by lia. reflexivity. }
  destruct (N.ltb_spec c 2048).
  { cbn [app utf8_valid]. unfold is_lead2, is_cont.
    replace (192 + c / 64 <? 128) with false by lia.
    replace ((194 <=? 192 + c / 64) && (192 + c / 64 <? 224)) with true by lia.
    replace ((128 <=? 128 + c mod 64) && (128 + c mod 64 <? 192)) with true by lia.
    reflexivity. }
  destruct (N.ltb_spec c 65536).
  { cbn [app utf8_valid]. unfold is_lead2, is_lead3, is_cont, snd3_ok.
    replace (224 + c / 4096 <? 128) with false by lia.
    replace ((194 <=? 224 + c / 4096) && (224 + c / 4096 <? 224)) with false by lia.
    replace ((224 <=? 224 + c / 4096) && (224 + c / 4096 <? 240)) with true by lia.
    replace ((128 <=? 128 + c mod 64) && (128 + c mod 64 <? 192)) with true by lia.
    destruct (N.eqb_spec (224 + c / 4096) 224).
    { replace ((160 <=? 128 + (c / 64) mod 64) && (128 + (c / 64) mod 64 <? 192)) with true by lia. reflexivity. }
    destruct (N.eqb_spec (224 + c / 4096) 237).
    { replace ((128 <=? 128 + (c / 64) mod 64) && (128 + (c / 64) mod 64 <? 160)) with true by lia. reflexivity. }
    unfold is_cont.
    replace ((128 <=? 128 + (c / 64) mod 64) && (128 + (c / 64) mod 64 <? 192)) with true by lia. reflexivity. }
  { cbn [app utf8_valid]. unfold is_lead2, is_lead3, is_lead4, is_cont, snd4_ok.
    replace (240 + c / 262144 <? 128) with false by lia.
    replace ((194 <=? 240 + c / 262144) && (240 + c / 262144 <? 224)) with false by lia.
    replace ((224 <=? 240 + c / 262144) && (240 + c / 262144 <? 240)) with false by lia.
    replace ((240 <=? 240 + c / 262144) && (240 + c / 262144 <? 245)) with true by lia.
    replace ((128 <=? 128 + c mod 64) && (128 + c mod 64 <? 192)) with true by lia.
    replace ((128 <=? 128 + (c / 64) mod 64) && (128 + (c / 64) mod 64 <? 192)) with true by lia.
    destruct (N.eqb_spec (240 + c / 262144) 240).
    { replace ((144 <=? 128 + (c / 4096) mod 64) && (128 + (c / 4096) mod 64 <? 192)) with true by lia. reflexivity. }
    destruct (N.eqb_spec (240 + c / 262144) 244).
    { replace ((128 <=? 128 + (c / 4096) mod 64) && (128 + (c / 4096) mod 64 <? 144)) with true by lia. reflexivity. }
    unfold is_cont.
    replace ((128 <=? 128 + (c / 4096) mod 64) && (128 + (c / 4096) mod 64 <? 192)) with true by lia. reflexivity. }
Qed.

(** One decoding step of a valid string. *)
Lemma utf8_valid_step l : utf8_valid l = true -> l <> [] ->
  exists c r, scalar c /\ l = utf8_enc c ++ r /\ utf8_valid r = true.
Proof.
  destruct l as [|b0 l1]; [congruence|]. intros H _. cbn [utf8_valid] in H.
  destruct (N.ltb_spec b0 128) as [H0|H0].
  { exists b0, l1. split; [left; lia|]. split; [|exact H].
    unfold utf8_enc. replace (b0 <? 128) with true by lia. reflexivity. }
  destruct (is_lead2 b0) eqn:L2.
  { destruct l1 as [|b1 l2]; [discriminate|]. apply andb_true_iff in H as [H1 H2].
    unfold is_lead2, is_cont in *.
    exists ((b0 - 192) * 64 + (b1 - 128)), l2. split; [left; lia|]. split; [|exact H2].
    unfold utf8_enc.
    replace ((b0 - 192) * 64 + (b1 - 128) <? 128) with false by lia.
    replace ((b0 - 192) * 64 + (b1 - 128) <? 2048) with true by lia.
    cbn [app]. repeat f_equal; lia. }
  destruct (is_lead3 b0) eqn:L3.
  { destruct l1 as [|b1 [|b2 l3]]; try discriminate.
    apply andb_true_iff in H as [H H3]. apply andb_true_iff in H as [H1 H2].
    assert (B1 : 128 <= b1 < 192 /\ (b0 = 224 -> 160 <= b1) /\ (b0 = 237 -> b1 < 160)).
    { unfold snd3_ok, is_cont in H1. destruct (N.eqb_spec b0 224); [lia|].
      destruct (N.eqb_spec b0 237); lia. }
    unfold is_lead3, is_cont in *. clear H1.
    exists ((b0 - 224) * 4096 + (b1 - 128) * 64 + (b2 - 128)), l3.
    split; [unfold scalar; lia|]. split; [|exact H3].
    unfold utf8_enc.
    replace ((b0 - 224) * 4096 + (b1 - 128) * 64 + (b2 - 128) <? 128) with false by lia.
    replace ((b0 - 224) * 4096 + (b1 - 128) * 64 + (b2 - 128) <? 2048) with false by lia.
    replace ((b0 - 224) * 4096 + (b1 - 128) * 64 + (b2 - 128) <? 65536) with true by lia.
    cbn [app]. repeat f_equal; lia. }
  destruct (is_lead4 b0) eqn:L4; [|discriminate].
  destruct l1 as [|b1 [|b2 [|b3 l4]]]; try discriminate.
  apply andb_true_iff in H as [H H4]. apply andb_true_iff in H as [H H3].
  apply andb_true_iff in H as [H1 H2].
  assert (B1 : 128 <= b1 < 192 /\ (b0 = 240 -> 144 <= b1) /\ (b0 = 244 -> b1 < 144)).
  { unfold snd4_ok, is_cont in H1. destruct (N.eqb_spec b0 240); [lia|].
    destruct (N.eqb_spec b0 244); lia. }
  unfold is_lead4, is_cont in *. clear H1.
  exists ((b0 - 240) * 262144 + (b1 - 128) * 4096 + (b2 - 128) * 64 + (b3 - 128)), l4.
  split; [unfold scalar; lia|]. split; [|exact H4].
  unfold utf8_enc.
  set (c := (b0 - 240) * 262144 + (b1 - 128) * 4096 + (b2 - 128) * 64 + (b3 - 128)).
  replace (c <? 128) with false by lia.
  replace (c <? 2048) with false by lia.
  replace (c <? 65536) with false by lia.
  unfold c. cbn [app]. repeat f_equal; lia.
Qed.

Lemma utf8_enc_length c : (1 <= length (utf8_enc c))%nat.
Proof. unfold utf8_enc. repeat (destruct (_ <? _)); cbn [length]; lia. Qed.

Lemma utf8_valid_iff l : utf8_valid l = true <-> is_utf8 l.
Proof.
  split.
  - remember (length l) as n eqn:En. revert l En.
    induction n as [n IH] using lt_wf_ind. intros l -> H.
    destruct l as [|b l']; [exists []; split; [constructor|reflexivity]|].
    destruct (utf8_valid_step _ H ltac:(discriminate)) as (c & r & Hc & E & Hr).
    destruct (IH (length r)) with (l := r) as (cs & Hcs & Er); try assumption; [|reflexivity|].
    { rewrite E, app_length. pose proof (utf8_enc_length c). lia. }
    exists (c :: cs). split; [constructor; assumption|].
    rewrite E, Er. reflexivity.
  - intros (cs & Hcs & ->). induction Hcs as [|c cs Hc _ IH]; [reflexivity|].
    cbn [utf8_text flat_map]. unfold utf8_text in IH. rewrite utf8_valid_enc by assumption. exact IH.
Qed.

Lemma is_utf8_app a b : is_utf8 a -> is_utf8 b -> is_utf8 (a ++ b).
Proof.
  intros (ca & Ha & ->) (cb & Hb & ->). exists (ca ++ cb).
  split; [apply Forall_app; auto|]. unfold utf8_text. rewrite flat_map_app. reflexivity.
Qed.

Lemma utf8_valid_app a b : utf8_valid a = true -> utf8_valid b = true -> utf8_valid (a ++ b) = true.
Proof. rewrite !utf8_valid_iff. apply is_utf8_app. Qed.

Lemma utf8_valid_app_l a b : utf8_valid a = true -> utf8_valid (a ++ b) = utf8_valid b.
Proof.
  rewrite utf8_valid_iff. intros (cs & Hcs & ->).
  induction Hcs as [|c cs Hc _ IH]; [reflexivity|].
  cbn [utf8_text flat_map]. unfold utf8_text in IH. rewrite <- app_assoc, utf8_valid_enc by assumption. exact IH.
Qed.

Lemma utf8_valid_ascii l : Forall (fun b => b < 128) l -> utf8_valid l = true.
Proof.
  induction 1 as [|b l Hb _ IH]; [reflexivity|]. cbn [utf8_valid].
  replace (b <? 128) with true by lia. exact IH.
Qed.

Lemma utf8_lossy_valid l : utf8_valid l = true -> utf8_lossy l = l.
Proof.
  remember (length l) as n eqn:En. revert l En.
  induction n as [n IH] using lt_wf_ind. intros [|b0 l1] -> H; [reflexivity|].
  cbn [utf8_valid] in H. cbn [utf8_lossy].
  destruct (b0 <? 128).
  { f_equal. eapply IH; [|reflexivity|exact H]. cbn [length]. lia. }
  destruct (is_lead2 b0).
  { destruct l1 as [|b1 l2]; [discriminate|]. apply andb_true_iff in H as [-> H].
    do 2 f_equal. eapply IH; [|reflexivity|exact H]. cbn [length]. lia. }
  destruct (is_lead3 b0).
  { destruct l1 as [|b1 [|b2 l3]]; try discriminate.
    apply andb_true_iff in H as [H H3]. apply andb_true_iff in H as [-> ->].
    do 3 f_equal. eapply IH; [|reflexivity|exact H3]. cbn [length]. lia. }
  destruct (is_lead4 b0); [|discriminate].
  destruct l1 as [|b1 [|b2 [|b3 l4]]]; try discriminate.
  apply andb_true_iff in H as [H H4]. apply andb_true_iff in H as [H ->].
  apply andb_true_iff in H as [-> ->].
  do 4 f_equal. eapply IH; [|reflexivity|exact H4]. cbn [length]. lia.
Qed.

(** Whatever comes in, the lossy conversion produces valid UTF-8 (a Rust String). *)
Lemma utf8_lossy_ok l : utf8_valid (utf8_lossy l) = true.
Proof.
  remember (length l) as n eqn:En. revert l En.
  induction n as [n IH] using lt_wf_ind. intros l En.
  assert (R : forall r, utf8_valid (repl ++ r) = utf8_valid r) by (intros r; apply utf8_valid_app_l; reflexivity).
  assert (RR : utf8_valid repl = true) by reflexivity.
  assert (IH' : forall r, (length r < length l)%nat -> utf8_valid (utf8_lossy r) = true).
  { intros r Hr. eapply IH; [|reflexivity]. lia. }
  clear IH. subst n. destruct l as [|b0 l1]; [reflexivity|]. cbn [utf8_lossy].
  destruct (b0 <? 128) eqn:E0.
  { cbn [utf8_valid]. rewrite E0. apply IH'. cbn [length]. lia. }
  destruct (is_lead2 b0) eqn:E2.
  { destruct l1 as [|b1 l2]; [exact RR|].
    destruct (is_cont b1) eqn:C1; [|rewrite R; apply IH'; cbn [length]; lia].
    cbn [utf8_valid]. rewrite E0, E2, C1. cbn [andb]. apply IH'; cbn [length]; lia. }
  destruct (is_lead3 b0) eqn:E3.
  { destruct l1 as [|b1 l2]; [exact RR|].
    destruct (snd3_ok b0 b1) eqn:C1; [|rewrite R; apply IH'; cbn [length]; lia].
    destruct l2 as [|b2 l3]; [exact RR|].
    destruct (is_cont b2) eqn:C2; [|rewrite R; apply IH'; cbn [length]; lia].
    cbn [utf8_valid]. rewrite E0, E2, E3, C1, C2. cbn [andb]. apply IH'; cbn [length]; lia. }
  destruct (is_lead4 b0) eqn:E4; [|rewrite R; apply IH'; cbn [length]; lia].
  destruct l1 as [|b1 l2]; [exact RR|].
  destruct (snd4_ok b0 b1) eqn:C1; [|rewrite R; apply IH'; cbn [length]; lia].
  destruct l2 as [|b2 l3]; [exact RR|].
  destruct (is_cont b2) eqn:C2; [|rewrite R; apply IH'; cbn [length]; lia].
  destruct l3 as [|b3 l4]; [exact RR|].
  destruct (is_cont b3) eqn:C3; [|rewrite R; apply IH'; cbn [length]; lia].
  cbn [utf8_valid]. rewrite E0, E2, E3, E4, C1, C2, C3. cbn [andb]. apply IH'; cbn [length]; lia.
Qed.

(** ** Monad *)
Lemma bind_ok {A B} (m : res A) (f : A -> res B) y :
  bind m f = Ok y -> exists x, m = Ok x /\ f x = Ok y.
Proof. destruct m as [x|e| |]; cbn [bind]; intros H; try discriminate. eauto. Qed.
