(** Lemmas about the HPACK model. *)
From Coq Require Import Ascii String NArith ZArith Lia Bool List ZifyBool ZifyNat ZifyN.
From Verif Require Import Base S_Utf8 P_Base M_Std M_Helper M_Header M_Huffman M_Hpack.
From Verif Require Import S_Huffman S_Hpack P_Huffman.
Import ListNotations.
Local Open Scope N_scope.
Ltac Zify.zify_post_hook ::= Z.div_mod_to_equations.

(** ** Integers *)
Definition prefixes : list N := [1; 2; 3; 4; 5; 6; 7; 8].
Lemma prefix_in p : 1 <= p <= 8 -> In p prefixes.
Proof.
  intros H. assert (E : p = 1 \/ p = 2 \/ p = 3 \/ p = 4 \/ p = 5 \/ p = 6 \/ p = 7 \/ p = 8) by lia.
  unfold prefixes. cbn [In]. intuition.
Qed.

Lemma prefix_mask_eq p : 1 <= p <= 8 -> prefix_mask p = 2 ^ p - 1.
Proof.
  intros H. unfold prefix_mask. destruct (N.leb_spec 8 p) as [L|L]; [|reflexivity].
  replace p with 8 by lia. reflexivity.
Qed.

Lemma pow2_range p : 1 <= p <= 8 -> 2 <= 2 ^ p <= 256.
Proof.
  intros H. split.
  - change 2 with (2 ^ 1) at 1. apply N.pow_le_mono_r; lia.
  - change 256 with (2 ^ 8). apply N.pow_le_mono_r; lia.
Qed.

Lemma lead_bits p fl : 1 <= p <= 8 -> fl < 256 -> N.land fl (255 - (2 ^ p - 1)) = fl / 2 ^ p * 2 ^ p.
Proof.
  intros H Hf.
  assert (A : forall p, In p prefixes -> (N.land fl (255 - (2 ^ p - 1)) =? fl / 2 ^ p * 2 ^ p) = true).
  { apply forallb_forall. revert fl Hf. apply byte_sweep. vm_compute. reflexivity. }
  apply N.eqb_eq, A, prefix_in, H.
Qed.

Lemma land_mask p x : N.land x (2 ^ p - 1) = x mod 2 ^ p.
Proof. rewrite <- N.pred_sub, <- N.ones_equiv. apply N.land_ones. Qed.

Lemma flag_mod p fl v : flag_bits p fl -> v < 2 ^ p -> (fl + v) mod 2 ^ p = v.
Proof.
  intros (_ & k & ->) H. rewrite N.add_comm, N.mod_add by (apply N.pow_nonzero; lia).
  apply N.mod_small, H.
Qed.

Lemma byte_parts b : b < 256 ->
  N.land b 127 = b mod 128 /\ (N.land b 128 =? 128) = (128 <=? b).
Proof.
  intros H.
  assert (A : ((N.land b 127 =? b mod 128) && Bool.eqb (N.land b 128 =? 128) (128 <=? b)) = true).
  { revert b H. apply byte_sweep. vm_compute. reflexivity. }
  apply andb_true_iff in A. destruct A as [A1 A2]. apply N.eqb_eq in A1. apply Bool.eqb_prop in A2. auto.
Qed.

Lemma int_tail_ok l w : int_tail_repr l w -> bytes_ok l /\ l <> [].
Proof.
  induction 1 as [b H|b l w H H1 [IH _]]; (split; [|discriminate]); apply bytes_ok_cons;
    (split; [lia|]); [apply bytes_ok_nil|exact IH].
Qed.

Lemma int_loop_repr l w : int_tail_repr l w -> forall value m total rest,
  total + blen l <= 5 -> int_loop value m total (l ++ rest) = Ok (value + w * 2 ^ m, total + blen l).
Proof.
  induction 1 as [b H|b l w H H1 IH]; intros value m total rest L; cbn [app int_loop].
  - destruct (byte_parts b ltac:(lia)) as [E1 E2]. rewrite E1, E2.
    destruct (N.leb_spec 128 b) as [L2|L2]; [lia|]. cbn [negb].
    rewrite N.mod_small by lia. reflexivity.
  - destruct (byte_parts (b + 128) ltac:(lia)) as [E1 E2]. rewrite E1, E2.
    destruct (N.leb_spec 128 (b + 128)) as [L2|L2]; [|lia]. cbn [negb].
    rewrite blen_cons in *.
    assert (NE : 1 <= blen l). { destruct (int_tail_ok _ _ H1) as [_ X]. destruct l; [contradiction|]. rewrite blen_cons. lia. }
    destruct (N.eqb_spec (total + 1) 5) as [E|E]; [lia|].
    rewrite IH by lia. f_equal. f_equal; [|lia].
    replace ((b + 128) mod 128) with b by lia.
    rewrite N.pow_add_r. change (2 ^ 7) with 128. ring.
Qed.

Lemma decode_integer_repr p fl l v rest : 1 <= p <= 8 -> flag_bits p fl -> int_repr p fl l v ->
  (length l <= 5)%nat -> decode_integer (l ++ rest) p = Ok (v, blen l).
Proof.
  intros Hp Hf H L. unfold decode_integer.
  destruct (N.ltb_spec p 1) as [A|_]; [lia|]. destruct (N.ltb_spec 8 p) as [A|_]; [lia|]. cbn [orb].
  pose proof (pow2_range p Hp) as R. rewrite prefix_mask_eq by exact Hp.
  revert L. destruct H as [v Hv|l w Hl]; intros L; cbn [app]; rewrite land_mask.
  - rewrite (flag_mod p fl v Hf) by lia.
    destruct (N.ltb_spec v (2 ^ p - 1)) as [_|A]; [reflexivity|lia].
  - rewrite (flag_mod p fl _ Hf) by lia. rewrite N.ltb_irrefl.
    cbn [length] in L. rewrite (int_loop_repr l w Hl) by (unfold blen; lia).
    rewrite N.pow_0_r, N.mul_1_r, blen_cons. reflexivity.
Qed.

(** What decode_integer accepts. *)
Lemma int_loop_exact buf : forall value m total v n, bytes_ok buf -> total <= 4 ->
  int_loop value m total buf = Ok (v, n) ->
  exists l rest w, buf = l ++ rest /\ int_tail_repr l w /\ v = value + w * 2 ^ m /\
    n = total + blen l /\ n <= 5.
Proof.
  induction buf as [|b buf IH]; intros value m total v n B T H; cbn [int_loop] in H; [discriminate H|].
  apply bytes_ok_cons in B. destruct B as [Bb B].
  destruct (byte_parts b Bb) as [E1 E2]. rewrite E1, E2 in H.
  destruct (N.leb_spec 128 b) as [L|L]; cbn [negb] in H.
  - destruct (N.eqb_spec (total + 1) 5) as [E|E]; [discriminate H|].
    apply IH in H; [|exact B|lia]. destruct H as (l & rest & w & -> & HR & -> & -> & Hn).
    exists (b :: l), rest, (b mod 128 + 128 * w).
    split; [reflexivity|]. split. { replace b with (b mod 128 + 128) at 1 by lia. constructor; [lia|exact HR]. }
    split. { rewrite N.pow_add_r. change (2 ^ 7) with 128. ring. }
    rewrite blen_cons. split; lia.
  - injection H as <- <-. exists [b], buf, b. split; [reflexivity|].
    split; [constructor; exact L|]. rewrite N.mod_small by exact L. split; [reflexivity|].
    change (blen [b]) with 1. split; lia.
Qed.

Lemma decode_integer_exact buf p v n : 1 <= p <= 8 -> bytes_ok buf -> decode_integer buf p = Ok (v, n) ->
  exists fl l rest, buf = l ++ rest /\ flag_bits p fl /\ int_repr p fl l v /\ n = blen l /\ n <= 5.
Proof.
  intros Hp B H. unfold decode_integer in H.
  destruct (N.ltb_spec p 1) as [A|_]; [lia|]. destruct (N.ltb_spec 8 p) as [A|_]; [lia|]. cbn [orb] in H.
  pose proof (pow2_range p Hp) as R. rewrite prefix_mask_eq in H by exact Hp.
  destruct buf as [|b buf]; [discriminate H|]. rewrite land_mask in H.
  apply bytes_ok_cons in B. destruct B as [Bb B].
  assert (P : 2 ^ p <> 0) by lia.
  pose proof (N.mod_lt b (2 ^ p) P) as M.
  pose proof (N.div_mod b (2 ^ p) P) as DM.
  assert (FB : flag_bits p (b / 2 ^ p * 2 ^ p)).
  { split; [|exists (b / 2 ^ p); reflexivity].
    rewrite N.mul_comm. pose proof (N.mul_div_le b (2 ^ p) P). lia. }
  exists (b / 2 ^ p * 2 ^ p). rewrite (N.mul_comm (b / 2 ^ p)) in *.
  set (fl := 2 ^ p * (b / 2 ^ p)) in *. set (r := b mod 2 ^ p) in *. clearbody fl r.
  destruct (N.ltb_spec r (2 ^ p - 1)) as [L|L].
  - injection H as <- <-. exists [b], buf. split; [reflexivity|]. split; [exact FB|].
    split; [|split; [reflexivity|lia]]. rewrite DM. constructor. exact L.
  - assert (r = 2 ^ p - 1) by lia. subst r.
    apply int_loop_exact in H; [|exact B|lia]. destruct H as (l & rest & w & -> & HR & -> & -> & Hn).
    exists (b :: l), rest. split; [reflexivity|]. split; [exact FB|].
    rewrite N.pow_0_r, N.mul_1_r. split; [|rewrite blen_cons; split; lia].
    rewrite DM at 1. constructor. exact HR.
Qed.

Lemma int_loop_total buf : forall value m total,
  (exists r, int_loop value m total buf = Ok r) \/
  exists e, int_loop value m total buf = Err (int_err e).
Proof.
  induction buf as [|b buf IH]; intros value m total; cbn [int_loop]; [right; eauto|].
  destruct (negb _); [left; eauto|]. destruct (_ =? 5); [right; eauto|]. apply IH.
Qed.
Lemma decode_integer_total buf p :
  (exists r, decode_integer buf p = Ok r) \/ exists e, decode_integer buf p = Err (int_err e).
Proof.
  unfold decode_integer. destruct (_ || _); [right; eauto|].
  destruct buf as [|b buf]; [right; eauto|]. destruct (_ <? _); [left; eauto|]. apply int_loop_total.
Qed.

(** More octets do not change an accepted integer. *)
Lemma int_loop_stable buf x : forall value m total r,
  int_loop value m total buf = Ok r -> int_loop value m total (buf ++ x) = Ok r.
Proof.
  induction buf as [|b buf IH]; intros value m total r H; cbn [int_loop app] in *; [discriminate H|].
  destruct (negb _); [exact H|]. destruct (_ =? 5); [discriminate H|]. apply IH, H.
Qed.
Lemma decode_integer_stable buf x p r :
  decode_integer buf p = Ok r -> decode_integer (buf ++ x) p = Ok r.
Proof.
  unfold decode_integer. destruct (_ || _); [discriminate|].
  destruct buf as [|b buf]; [discriminate|]. cbn [app]. destruct (_ <? _); [auto|]. apply int_loop_stable.
Qed.

Lemma int_loop_bound buf : forall value m total v n,
  int_loop value m total buf = Ok (v, n) -> total + 1 <= n /\ n <= total + blen buf.
Proof.
  induction buf as [|b buf IH]; intros value m total v n H; cbn [int_loop] in H; [discriminate H|].
  rewrite blen_cons. destruct (negb _); [injection H as <- <-; lia|].
  destruct (_ =? 5); [discriminate H|]. apply IH in H. lia.
Qed.
Lemma decode_integer_bound buf p v n : decode_integer buf p = Ok (v, n) -> 1 <= n /\ n <= blen buf.
Proof.
  unfold decode_integer. destruct (_ || _); [discriminate|].
  destruct buf as [|b buf]; [discriminate|]. rewrite blen_cons. destruct (_ <? _).
  - intros [= <- <-]. lia.
  - intros H. apply int_loop_bound in H. lia.
Qed.

(** The encoder. *)
Lemma int_tail_spec fuel : forall v, v < 2 ^ N.of_nat fuel -> int_tail_repr (int_tail fuel v) v \/ (fuel = 0)%nat.
Proof.
  induction fuel as [|f IH]; intros v H; [auto|left]. cbn [int_tail].
  destruct (N.leb_spec 128 v) as [L|L]; [|constructor; exact L].
  replace (N.of_nat (S f)) with (N.succ (N.of_nat f)) in H by lia. rewrite N.pow_succ_r' in H.
  assert (D : v / 128 < 2 ^ N.of_nat f) by (clear IH; apply N.div_lt_upper_bound; lia).
  destruct (IH _ D) as [I|I].
  - replace v with (v mod 128 + 128 * (v / 128)) at 3 by (clear; lia). apply tail_more; [|exact I].
    apply N.mod_lt. lia.
  - subst f. change (2 ^ N.of_nat 0) with 1 in H. lia.
Qed.

Lemma print_fuel_bound v : v < 2 ^ N.of_nat (print_fuel v).
Proof.
  unfold print_fuel. replace (N.of_nat (S (N.to_nat (N.log2 v)))) with (N.succ (N.log2 v)) by lia.
  destruct (N.eq_dec v 0) as [->|NZ]; [apply pow2_pos|]. apply N.log2_spec. lia.
Qed.

Lemma int_tail_fuel v : int_tail_repr (int_tail (print_fuel v) v) v.
Proof.
  destruct (int_tail_spec (print_fuel v) v (print_fuel_bound v)) as [H|H]; [exact H|discriminate H].
Qed.

Lemma int_tail_length fuel : forall v k, v < 128 ^ N.of_nat k -> (1 <= k)%nat -> (length (int_tail fuel v) <= k)%nat.
Proof.
  induction fuel as [|f IH]; intros v k H K; cbn [int_tail length]; [lia|].
  destruct (N.leb_spec 128 v) as [L|L]; cbn [length]; [|lia].
  destruct k as [|[|k]]; [lia| |].
  - change (128 ^ N.of_nat 1) with 128 in H. lia.
  - assert (length (int_tail f (v / 128)) <= S k)%nat; [|lia].
    apply IH; [|lia]. replace (N.of_nat (S (S k))) with (N.succ (N.of_nat (S k))) in H by lia.
    rewrite N.pow_succ_r' in H. apply N.div_lt_upper_bound; lia.
Qed.

Definition above (p lead : N) : N := lead / 2 ^ p * 2 ^ p.
Lemma above_flags p lead : lead < 256 -> flag_bits p (above p lead).
Proof.
  intros H. assert (P : 2 ^ p <> 0) by (apply N.pow_nonzero; lia).
  split; [|exists (lead / 2 ^ p); reflexivity].
  unfold above. rewrite N.mul_comm. pose proof (N.mul_div_le lead (2 ^ p) P). lia.
Qed.

Lemma encode_integer_repr v p lead : 1 <= p <= 8 -> lead < 256 ->
  int_repr p (above p lead) (encode_integer v p lead) v.
Proof.
  intros Hp Hl. unfold encode_integer. rewrite prefix_mask_eq by exact Hp.
  rewrite lead_bits by assumption. fold (above p lead).
  pose proof (pow2_range p Hp) as R.
  destruct (N.ltb_spec v (2 ^ p - 1)) as [L|L].
  - unfold above. rewrite lor_mul_pow2 by lia. constructor. exact L.
  - unfold above at 2. rewrite lor_mul_pow2 by lia. fold (above p lead).
    replace v with (2 ^ p - 1 + (v - (2 ^ p - 1))) at 3 by lia.
    constructor. apply int_tail_fuel.
Qed.

Lemma encode_integer_length v p lead : 1 <= p <= 8 -> v < 2 ^ p - 1 + 2 ^ 28 ->
  (1 <= length (encode_integer v p lead) <= 5)%nat.
Proof.
  intros Hp Hv. unfold encode_integer. rewrite prefix_mask_eq by exact Hp.
  pose proof (pow2_range p Hp) as R.
  destruct (N.ltb_spec v (2 ^ p - 1)) as [L|L]; cbn [length]; [lia|].
  assert (length (int_tail (print_fuel (v - (2 ^ p - 1))) (v - (2 ^ p - 1))) <= 4)%nat; [|lia].
  apply int_tail_length; [|lia]. change (128 ^ N.of_nat 4) with (2 ^ 28). lia.
Qed.

Lemma integer_round_trip v p lead rest : 1 <= p <= 8 -> lead < 256 -> v < 2 ^ p - 1 + 2 ^ 28 ->
  decode_integer (encode_integer v p lead ++ rest) p = Ok (v, blen (encode_integer v p lead)).
Proof.
  intros Hp Hl Hv. apply (decode_integer_repr p (above p lead)); [exact Hp|apply above_flags, Hl| |].
  - apply encode_integer_repr; assumption.
  - apply encode_integer_length; assumption.
Qed.

Lemma int_tail_long fuel : forall k value m total v rest,
  v < 2 ^ N.of_nat fuel -> 128 ^ N.of_nat k <= v -> (1 <= k)%nat -> total + N.of_nat k = 5 ->
  int_loop value m total (int_tail fuel v ++ rest) = Err (int_err TooManyOctets).
Proof.
  induction fuel as [|f IH]; intros k value m total v rest F V K T.
  - change (2 ^ N.of_nat 0) with 1 in F.
    assert (1 <= 128 ^ N.of_nat k) by (pose proof (N.pow_nonzero 128 (N.of_nat k)); lia). lia.
  - cbn [int_tail].
    destruct k as [|k]; [lia|]. replace (N.of_nat (S k)) with (N.succ (N.of_nat k)) in * by lia.
    rewrite N.pow_succ_r' in V.
    assert (1 <= 128 ^ N.of_nat k) by (pose proof (N.pow_nonzero 128 (N.of_nat k)); lia).
    destruct (N.leb_spec 128 v) as [L|L]; [|lia]. cbn [app int_loop].
    assert (M : v mod 128 < 128) by (apply N.mod_lt; lia).
    destruct (byte_parts (v mod 128 + 128) ltac:(lia)) as [E1 E2]. rewrite E1, E2.
    destruct (N.leb_spec 128 (v mod 128 + 128)) as [L2|L2]; [|lia]. cbn [negb].
    destruct (N.eqb_spec (total + 1) 5) as [E|E]; [reflexivity|].
    apply (IH k); [| |lia|lia].
    + replace (N.of_nat (S f)) with (N.succ (N.of_nat f)) in F by lia. rewrite N.pow_succ_r' in F.
      clear - F L. apply N.div_lt_upper_bound; lia.
    + apply N.div_le_lower_bound; [lia|exact V].
Qed.

Lemma integer_too_large v p lead rest : 1 <= p <= 8 -> lead < 256 -> 2 ^ p - 1 + 2 ^ 28 <= v ->
  decode_integer (encode_integer v p lead ++ rest) p = Err (int_err TooManyOctets).
Proof.
  intros Hp Hl Hv. unfold decode_integer.
  destruct (N.ltb_spec p 1) as [A|_]; [lia|]. destruct (N.ltb_spec 8 p) as [A|_]; [lia|]. cbn [orb].
  unfold encode_integer. rewrite prefix_mask_eq by exact Hp. pose proof (pow2_range p Hp) as R.
  rewrite lead_bits by assumption.
  destruct (N.ltb_spec v (2 ^ p - 1)) as [A|_]; [lia|]. cbn [app].
  rewrite lor_mul_pow2 by lia. rewrite land_mask.
  rewrite (flag_mod p _ _ (above_flags p lead Hl)) by lia. rewrite N.ltb_irrefl.
  apply (int_tail_long _ 4); [apply print_fuel_bound| |lia|reflexivity].
  change (128 ^ N.of_nat 4) with (2 ^ 28). lia.
Qed.
