(** Lemmas on M_Std. *)
From Coq Require Import Ascii String NArith ZArith Lia Bool List ZifyBool ZifyNat ZifyN.
From Verif Require Import Base P_Base M_Std.
Import ListNotations.
Local Open Scope N_scope.
Ltac Zify.zify_post_hook ::= Z.div_mod_to_equations.

Definition digit_step (base : N) (val : N -> N) (a b : N) : N := a * base + val b.

Lemma digits_val_fold base val l : digits_val base val l = fold_left (digit_step base val) l 0.
Proof. reflexivity. Qed.

Lemma pow_div_lt base f n : 2 <= base -> n < 2 ^ N.of_nat (S f) -> n / base < 2 ^ N.of_nat f.
Proof.
  intros Hb Hn. rewrite Nat2N.inj_succ, N.pow_succ_r' in Hn.
  apply N.div_lt_upper_bound; nia.
Qed.

  
  Lemma print_base_val base dig val fuel : 2 <= base -> (forall d, d < base -> val (dig d) = d) ->
    forall n acc, n < 2 ^ N.of_nat fuel -> (fuel <> 0)%nat ->
    fold_left (digit_step base val) (print_base fuel base dig n acc) 0
    = fold_left (digit_step base val) acc n.
  Proof.
    intros Hbase Hval. induction fuel as [|f IH]; intros n acc Hn Hf; [lia|].
    assert (Hm : n mod base < base) by (apply N.mod_lt; lia).
    assert (Hd : n = base * (n / base) + n mod base) by (apply N.div_mod; lia).
    cbn [print_base]. destruct (n / base =? 0) eqn:E.
    - apply N.eqb_eq in E. cbn [fold_left]. unfold digit_step at 2. rewrite Hval by exact Hm.
      f_equal. rewrite N.mul_0_l, N.add_0_l. rewrite E, N.mul_0_r in Hd. lia.
    - apply N.eqb_neq in E. rewrite IH.
      + cbn [fold_left]. unfold digit_step at 2. rewrite Hval by exact Hm. f_equal. nia.
      + apply pow_div_lt; [exact Hbase|exact Hn].
      + destruct f; [|lia]. change (2 ^ N.of_nat 1) with 2 in Hn.
        exfalso. apply E. apply N.div_small. lia.
  Qed.

  Lemma print_base_ok base dig ok fuel : 2 <= base -> (forall d, d < base -> ok (dig d) = true) ->
    forall n acc, forallb ok acc = true ->
    forallb ok (print_base fuel base dig n acc) = true.
  Proof.
    intros Hbase Hok. induction fuel as [|f IH]; intros n acc Ha; [exact Ha|].
    assert (Hm : n mod base < base) by (apply N.mod_lt; lia).
    cbn [print_base]. destruct (n / base =? 0).
    - cbn [forallb]. rewrite Hok by exact Hm. exact Ha.
    - apply IH. cbn [forallb]. rewrite Hok by exact Hm. exact Ha.
  Qed.

  Lemma print_base_nonnil base dig fuel : forall n acc, (fuel <> 0)%nat \/ acc <> [] ->
    print_base fuel base dig n acc <> [].
  Proof.
    induction fuel as [|f IH]; intros n acc H; cbn [print_base].
    - destruct H; [lia|assumption].
    - destruct (n / base =? 0); [discriminate|]. apply IH. right. discriminate.
  Qed.

  (** The leading digit is not zero unless the number is. *)
  Lemma print_base_head base dig fuel : 2 <= base -> forall n acc, n < 2 ^ N.of_nat fuel -> n <> 0 ->
    exists b r, print_base fuel base dig n acc = dig b :: r /\ b <> 0 /\ b < base.
  Proof.
    intros Hbase. induction fuel as [|f IH]; intros n acc Hn H0.
    - change (2 ^ N.of_nat 0) with 1 in Hn. lia.
    - cbn [print_base]. destruct (n / base =? 0) eqn:E.
      + apply N.eqb_eq in E. exists (n mod base), acc. split; [reflexivity|].
        assert (Hm : n mod base < base) by (apply N.mod_lt; lia).
        assert (Hd : n = base * (n / base) + n mod base) by (apply N.div_mod; lia).
        rewrite E, N.mul_0_r in Hd. lia.
      + apply N.eqb_neq in E. apply IH; [apply pow_div_lt; assumption|exact E].
  Qed.

Lemma print_fuel_ok n : n < 2 ^ N.of_nat (print_fuel n).
Proof.
  unfold print_fuel. rewrite Nat2N.inj_succ, N2Nat.id.
  destruct (N.eq_dec n 0) as [->|H]; [vm_compute; reflexivity|].
  apply N.log2_spec. lia.
Qed.
Lemma print_fuel_nz n : print_fuel n <> 0%nat.
Proof. discriminate. Qed.

Lemma dec_print_val n : dec_val (dec_print n) = n.
Proof.
  unfold dec_val, dec_print. rewrite digits_val_fold.
  rewrite (print_base_val 10 (fun d => 48 + d) (fun b => b - 48)); try reflexivity; try lia.
  - apply print_fuel_ok.
  - apply print_fuel_nz.
Qed.
Lemma dec_print_digits n : forallb dec_digit (dec_print n) = true.
Proof.
  unfold dec_print. apply print_base_ok; [lia| |reflexivity].
  intros d Hd. unfold dec_digit. lia.
Qed.
Lemma dec_print_nonnil n : dec_print n <> [].
Proof. apply print_base_nonnil. left. apply print_fuel_nz. Qed.
Lemma dec_print_head n : n <> 0 -> exists b r, dec_print n = 48 + b :: r /\ b <> 0 /\ b < 10.
Proof.
  intros H. apply (print_base_head 10 (fun d => 48 + d)); [lia|apply print_fuel_ok|exact H].
Qed.
Lemma dec_print_ok n : bytes_ok (dec_print n).
Proof.
  apply Forall_forall. intros b Hb.
  pose proof (dec_print_digits n) as H. rewrite forallb_forall in H. apply H in Hb.
  unfold dec_digit in Hb. unfold byte_ok. lia.
Qed.

Lemma parse_digits_print bound n : n < bound -> parse_digits bound (dec_print n) = Some n.
Proof.
  intros H. unfold parse_digits. rewrite dec_print_digits, dec_print_val.
  rewrite (proj2 (N.ltb_lt n bound) H).
  destruct (dec_print n) eqn:E; [exfalso; exact (dec_print_nonnil _ E)|reflexivity].
Qed.
Lemma dec_digit_first b : dec_digit b = true -> b <> 43 /\ b <> 45.
Proof. unfold dec_digit. lia. Qed.
Lemma parse_uint_digits bound l : forallb dec_digit l = true -> parse_uint bound l = parse_digits bound l.
Proof.
  intros H. unfold parse_uint. destruct l as [|b l]; [reflexivity|].
  cbn [forallb] in H. apply andb_true_iff in H as [H _]. apply dec_digit_first in H as [H _].
  destruct b as [|p]; [reflexivity|].
  repeat match goal with |- context [match ?x with xH => _ | _ => _ end] =>
    is_var x; destruct x; try reflexivity end.
  exfalso. apply H. reflexivity.
Qed.
Lemma parse_uint_print bound n : n < bound -> parse_uint bound (dec_print n) = Some n.
Proof.
  intros H. rewrite parse_uint_digits by apply dec_print_digits. apply parse_digits_print. exact H.
Qed.
Lemma parse_uint_bound bound l n : parse_uint bound l = Some n -> n < bound.
Proof.
  assert (D : forall l, parse_digits bound l = Some n -> n < bound).
  { intros l0 H. unfold parse_digits in H. destruct l0 as [|b l0]; [discriminate|].
    destruct (forallb dec_digit (b :: l0)); [|discriminate].
    destruct (dec_val (b :: l0) <? bound) eqn:E; [|discriminate].
    apply N.ltb_lt in E. congruence. }
  unfold parse_uint. intros H.
  repeat match type of H with match ?x with _ => _ end = _ => destruct x; try (now apply D in H); try discriminate end.
Qed.

Lemma hex_digit_cases d : d < 16 -> exists k, (k < 16)%nat /\ d = N.of_nat k.
Proof. intros H. exists (N.to_nat d). lia. Qed.

(** ** split *)
Lemma split_on_nonnil sep l : split_on sep l <> [].
Proof.
  induction l as [|b l IH]; [discriminate|]. cbn [split_on].
  destruct (b =? sep); [discriminate|]. destruct (split_on sep l); [contradiction|discriminate].
Qed.
Lemma split_on_none sep l : ~ In sep l -> split_on sep l = [l].
Proof.
  induction l as [|b l IH]; intros H; [reflexivity|]. cbn [split_on].
  rewrite IH by (intros K; apply H; right; exact K).
  destruct (b =? sep) eqn:E; [|reflexivity].
  apply N.eqb_eq in E. exfalso. apply H. left. exact E.
Qed.
Lemma split_on_app sep a l : ~ In sep a -> split_on sep (a ++ sep :: l) = a :: split_on sep l.
Proof.
  induction a as [|b a IH]; intros H.
  - cbn [app split_on]. rewrite N.eqb_refl. reflexivity.
  - cbn [app split_on]. rewrite IH by (intros K; apply H; right; exact K).
    destruct (b =? sep) eqn:E; [|reflexivity].
    apply N.eqb_eq in E. exfalso. apply H. left. exact E.
Qed.
(** [split_on] recovers the string. *)
Fixpoint join (sep : N) (ps : list bytes) : bytes :=
  match ps with
  | [] => []
  | [p] => p
  | p :: ps' => p ++ sep :: join sep ps'
  end.
Lemma split_on_join sep l : join sep (split_on sep l) = l /\ Forall (fun p => ~ In sep p) (split_on sep l).
Proof.
  induction l as [|b l [IH1 IH2]]; [split; [reflexivity|repeat constructor; intros []]|].
  cbn [split_on]. pose proof (split_on_nonnil sep l) as NN.
  destruct (b =? sep) eqn:E.
  - apply N.eqb_eq in E. subst b. split.
    + destruct (split_on sep l) as [|p ps]; [contradiction|].
      cbn [join app] in *. rewrite IH1. reflexivity.
    + constructor; [intros []|exact IH2].
  - apply N.eqb_neq in E. destruct (split_on sep l) as [|p ps]; [contradiction|]. split.
    + destruct ps; cbn [join app] in *; rewrite IH1; reflexivity.
    + inversion IH2; subst. constructor; [|assumption]. intros [K|K]; [congruence|contradiction].
Qed.
