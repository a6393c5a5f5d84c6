(** Proofs about src/ws. *)
From Coq Require Import Ascii String NArith ZArith Lia Bool List.
From Coq Require Import ZifyBool ZifyNat ZifyN.
From Verif Require Import Base S_Utf8 P_Base M_Ws S_Ws S_WsApi.
Import ListNotations.
Local Open Scope N_scope.

Ltac Zify.zify_post_hook ::= Z.div_mod_to_equations.

(** ** Bits *)
Lemma lor_add a b : N.land a b = 0 -> N.lor a b = a + b.
Proof. intros H. rewrite N.add_nocarry_lxor by exact H. symmetry. apply N.lxor_lor, H. Qed.

Lemma low4_sweep b : b < 256 ->
  (N.land b 15 <? 16) && (flags_truncate b + N.land b 15 =? b) && (N.land (flags_truncate b) 15 =? 0)
  && (flags_truncate b <? 256)
  && (N.lor (flags_truncate b) (N.land b 15) =? b) = true.
Proof. revert b. apply byte_sweep. vm_compute. reflexivity. Qed.

Lemma low7_sweep b : b < 256 ->
  (N.land b 127 <? 128) && ((N.land b 128 =? 128) || (N.land b 128 =? 0))
  && (N.land b 128 + N.land b 127 =? b) = true.
Proof. revert b. apply byte_sweep. vm_compute. reflexivity. Qed.

Lemma len7_sweep n : n < 256 -> implb (n <? 128)
  ((N.land (128 + n) 127 =? n) && (N.land (128 + n) 128 =? 128)
   && (N.land (0 + n) 127 =? n) && (N.land (0 + n) 128 =? 0)
   && (N.lor 128 n =? 128 + n) && (N.lor 0 n =? n)) = true.
Proof. revert n. apply byte_sweep. vm_compute. reflexivity. Qed.

Definition flagbits (fin r1 r2 r3 : bool) : N := bit fin 128 + bit r1 64 + bit r2 32 + bit r3 16.

Lemma flags_sweep fin r1 r2 r3 op : op < 256 -> implb (op <? 16)
  ((N.lor (flagbits fin r1 r2 r3) op =? flagbits fin r1 r2 r3 + op)
   && (N.land (flagbits fin r1 r2 r3 + op) 15 =? op)
   && (flags_truncate (flagbits fin r1 r2 r3 + op) =? flagbits fin r1 r2 r3)
   && Bool.eqb (fcontains (flagbits fin r1 r2 r3) FIN) fin
   && Bool.eqb (fcontains (flagbits fin r1 r2 r3) RSV1) r1
   && Bool.eqb (fcontains (flagbits fin r1 r2 r3) RSV2) r2
   && Bool.eqb (fcontains (flagbits fin r1 r2 r3) RSV3) r3) = true.
Proof. revert op. destruct fin, r1, r2, r3; apply byte_sweep; vm_compute; reflexivity. Qed.

Lemma flags_facts fin r1 r2 r3 op : op < 16 ->
  N.lor (flagbits fin r1 r2 r3) op = flagbits fin r1 r2 r3 + op /\
  N.land (flagbits fin r1 r2 r3 + op) 15 = op /\
  flags_truncate (flagbits fin r1 r2 r3 + op) = flagbits fin r1 r2 r3 /\
  fcontains (flagbits fin r1 r2 r3) FIN = fin /\
  fcontains (flagbits fin r1 r2 r3) RSV1 = r1 /\
  fcontains (flagbits fin r1 r2 r3) RSV2 = r2 /\
  fcontains (flagbits fin r1 r2 r3) RSV3 = r3.
Proof.
  intros H. pose proof (flags_sweep fin r1 r2 r3 op ltac:(lia)) as S.
  replace (op <? 16) with true in S by lia. cbn [implb] in S.
  repeat (apply andb_true_iff in S as [S ?]).
  repeat match goal with H : Bool.eqb _ _ = true |- _ => apply eqb_prop in H end.
  repeat match goal with H : (_ =? _) = true |- _ => apply N.eqb_eq in H end.
  tauto.
Qed.

Lemma flagbits_lt fin r1 r2 r3 : flagbits fin r1 r2 r3 < 256.
Proof. destruct fin, r1, r2, r3; reflexivity. Qed.

(** Every legal flag set is [flagbits] of its four bits. *)
Lemma flags_canon f : f < 256 -> implb (N.land f 15 =? 0)
  (f =? flagbits (fcontains f FIN) (fcontains f RSV1) (fcontains f RSV2) (fcontains f RSV3)) = true.
Proof. revert f. apply byte_sweep. vm_compute. reflexivity. Qed.

(** ** Headers *)
Definition hdr_of (fin r1 r2 r3 : bool) (op : N) (key : option mkey) (n : N) : ws_header :=
  {| wh_flags := flagbits fin r1 r2 r3; wh_opcode := op; wh_mask := key; wh_len := n |}.

Lemma be_enc_2 n : n < 65536 -> be_enc 2 n = [n / 256; n mod 256].
Proof.
  intros H. cbn [be_enc]. change (N.of_nat 1) with 1. change (N.of_nat 0) with 0.
  rewrite N.pow_0_r, N.pow_1_r, N.div_1_r. f_equal. apply N.mod_small. lia.
Qed.

Lemma be_enc_8 n : n < 2 ^ 64 -> be_enc 8 n =
  [n / 2 ^ 56; (n / 2 ^ 48) mod 256; (n / 2 ^ 40) mod 256; (n / 2 ^ 32) mod 256;
   (n / 2 ^ 24) mod 256; (n / 2 ^ 16) mod 256; (n / 2 ^ 8) mod 256; n mod 256].
Proof.
  intros H. cbn [be_enc].
  change (256 ^ N.of_nat 7) with (2 ^ 56). change (256 ^ N.of_nat 6) with (2 ^ 48).
  change (256 ^ N.of_nat 5) with (2 ^ 40). change (256 ^ N.of_nat 4) with (2 ^ 32).
  change (256 ^ N.of_nat 3) with (2 ^ 24). change (256 ^ N.of_nat 2) with (2 ^ 16).
  change (256 ^ N.of_nat 1) with (2 ^ 8). change (256 ^ N.of_nat 0) with 1.
  rewrite N.div_1_r. f_equal. apply N.mod_small.
  apply N.div_lt_upper_bound; [discriminate|]. exact H.
Qed.

(** write_header produces the RFC layout, and fails exactly when it should. *)
Lemma write_header_spec fin r1 r2 r3 op key n :
  op < 16 -> (8 <= op -> n <= 125) -> n < 2 ^ 64 ->
  write_header (hdr_of fin r1 r2 r3 op key n) = Ok (spec_header fin r1 r2 r3 op key n).
Proof.
  intros Hop Hc Hn. unfold write_header, hdr_of. cbn [wh_opcode wh_flags wh_mask wh_len].
  replace (15 <? op) with false by lia.
  replace ((8 <=? op) && (126 <=? n)) with false by lia.
  destruct (flags_facts fin r1 r2 r3 op Hop) as (Hf & _). rewrite Hf.
  unfold spec_header. cbn [app]. f_equal. f_equal.
  assert (E : (if n <=? 125 then n else if n <=? 65535 then 126 else 127) = spec_len7 n).
  { unfold spec_len7. destruct (N.leb_spec n 125), (N.ltb_spec n 126); try lia; auto.
    destruct (N.leb_spec n 65535), (N.ltb_spec n 65536); try lia; auto. }
  rewrite E.
  assert (L : spec_len7 n < 128).
  { unfold spec_len7. destruct (N.ltb_spec n 126); [lia|]. destruct (n <? 65536); lia. }
  f_equal.
  - pose proof (len7_sweep (spec_len7 n) ltac:(lia)) as S.
    replace (spec_len7 n <? 128) with true in S by lia. cbn [implb] in S.
    repeat (apply andb_true_iff in S as [S ?]).
    destruct key; lia.
  - f_equal. unfold spec_ext.
    destruct (N.ltb_spec n 126).
    { replace ((126 <=? n) && (n <=? 65535)) with false by lia.
      replace (65535 <? n) with false by lia. reflexivity. }
    destruct (N.ltb_spec n 65536).
    { replace ((126 <=? n) && (n <=? 65535)) with true by lia. apply be_enc_2. lia. }
    replace ((126 <=? n) && (n <=? 65535)) with false by lia.
    replace (65535 <? n) with true by lia. apply be_enc_8. exact Hn.
Qed.

Lemma write_header_reject h :
  (15 < wh_opcode h \/ (8 <= wh_opcode h /\ 126 <= wh_len h)) <->
  exists s, write_header h = Err (EWs (DataFrameError s)).
Proof.
  unfold write_header. split.
  - intros H. destruct (N.ltb_spec 15 (wh_opcode h)); [eauto|].
    replace ((8 <=? wh_opcode h) && (126 <=? wh_len h)) with true by lia. eauto.
  - intros [s H]. destruct (N.ltb_spec 15 (wh_opcode h)); [lia|].
    destruct ((8 <=? wh_opcode h) && (126 <=? wh_len h)) eqn:E; [lia|discriminate].
Qed.

(** read_len on a canonical field. *)
Lemma read_len_spec m n r : (m = 0 \/ m = 128) -> n < 2 ^ 64 ->
  read_len (m + spec_len7 n) (spec_ext n ++ r) = Ok (n, r) /\
  N.land (m + spec_len7 n) 128 = m.
Proof.
  intros Hm Hn.
  assert (L : spec_len7 n < 128).
  { unfold spec_len7. destruct (N.ltb_spec n 126); [lia|]. destruct (n <? 65536); lia. }
  pose proof (len7_sweep (spec_len7 n) ltac:(lia)) as S.
  replace (spec_len7 n <? 128) with true in S by lia. cbn [implb] in S.
  repeat (apply andb_true_iff in S as [S ?]).
  assert (E7 : N.land (m + spec_len7 n) 127 = spec_len7 n) by (destruct Hm as [-> | ->]; lia).
  assert (E8 : N.land (m + spec_len7 n) 128 = m) by (destruct Hm as [-> | ->]; lia).
  split; [|exact E8].
  unfold read_len. rewrite E7. unfold spec_len7, spec_ext.
  destruct (N.ltb_spec n 126).
  { replace (n <=? 125) with true by lia. reflexivity. }
  destruct (N.ltb_spec n 65536).
  { change (126 <=? 125) with false. change (126 =? 126) with true. cbv iota.
    rewrite <- be_enc_2 by lia. rewrite try_get_app by (change (256 ^ N.of_nat 2) with 65536; lia).
    cbn [bind]. replace (n <=? 125) with false by lia. reflexivity. }
  change (127 <=? 125) with false. change (127 =? 126) with false. cbv iota.
  rewrite <- be_enc_8 by exact Hn. rewrite try_get_app by exact Hn.
  cbn [bind]. replace (n <=? 65535) with false by lia. reflexivity.
Qed.

Lemma read_mask_spec key m b1 r : N.land b1 128 = m ->
  m = match key with Some _ => 128 | None => 0 end ->
  read_mask b1 (match key with Some (a, b, c, d) => [a; b; c; d] | None => [] end ++ r) = Ok (key, r).
Proof.
  intros E Em. unfold read_mask. rewrite E, Em.
  destruct key as [[[[a b] c] d]|].
  - change (128 =? 128) with true. cbv iota. cbn [app].
    rewrite try_get_1; cbn [bind]. rewrite try_get_1; cbn [bind].
    rewrite try_get_1; cbn [bind]. rewrite try_get_1; cbn [bind]. reflexivity.
  - reflexivity.
Qed.

Lemma read_header_spec fin r1 r2 r3 op key n r :
  op < 16 -> control_ok fin op n -> n < 2 ^ 64 ->
  read_header (spec_header fin r1 r2 r3 op key n ++ r) = Ok (hdr_of fin r1 r2 r3 op key n, r).
Proof.
  intros Hop Hc Hn. unfold read_header, spec_header. rewrite <- !app_assoc. cbn [app].
  rewrite try_get_1; cbn [bind]. rewrite try_get_1; cbn [bind].
  change (bit fin 128 + bit r1 64 + bit r2 32 + bit r3 16) with (flagbits fin r1 r2 r3).
  destruct (flags_facts fin r1 r2 r3 op Hop) as (_ & Ho & Ht & Hfin & _).
  rewrite Ho, Ht.
  set (m := match key with Some _ => 128 | None => 0 end).
  assert (Hm : m = 0 \/ m = 128) by (unfold m; destruct key; auto).
  destruct (read_len_spec m n (match key with Some (a, b, c, d) => [a; b; c; d] | None => [] end ++ r) Hm Hn)
    as [HL HM].
  rewrite HL; cbn [bind].
  replace ((8 <=? op) && (126 <=? n)) with false.
  2: { unfold control_ok in Hc. destruct (N.leb_spec 8 op) as [G|G]; [|reflexivity].
       destruct (Hc G) as [G' _]. cbn [andb]. symmetry. lia. }
  replace ((8 <=? op) && negb (fcontains (flagbits fin r1 r2 r3) FIN)) with false.
  2: { unfold control_ok in Hc. destruct (N.leb_spec 8 op) as [G|G]; [|reflexivity].
       destruct (Hc G) as [_ G']. rewrite Hfin, G'. reflexivity. }
  rewrite (read_mask_spec key m) by (exact HM || reflexivity). cbn [bind]. reflexivity.
Qed.

(** ** Canonicity: what read_header accepts is what write_header writes. *)
Lemma read_len_inv b1 l n r : b1 < 256 -> bytes_ok l -> read_len b1 l = Ok (n, r) ->
  N.land b1 127 = spec_len7 n /\ l = spec_ext n ++ r /\ n < 2 ^ 64.
Proof.
  intros Hb Hl H. pose proof (low7_sweep b1 Hb) as S.
  repeat (apply andb_true_iff in S as [S ?]).
  unfold read_len in H. set (l7 := N.land b1 127) in *.
  destruct (N.leb_spec l7 125) as [L|L].
  { injection H as <- <-. unfold spec_len7, spec_ext.
    replace (l7 <? 126) with true by lia. repeat split. change (2 ^ 64) with 18446744073709551616. lia. }
  destruct (N.eqb_spec l7 126) as [L'|L'].
  { apply bind_ok in H as [[v r'] [Hg H]].
    apply try_get_ok in Hg as (a & -> & Ha & ->).
    apply bytes_ok_app in Hl as [Hl _].
    pose proof (be_dec_lt a Hl) as Hlt. unfold blen in Hlt. rewrite Ha in Hlt.
    change (256 ^ N.of_nat 2) with 65536 in Hlt.
    destruct (N.leb_spec (be_dec a) 125) as [B|B]; [discriminate|].
    injection H as <- <-. unfold spec_len7, spec_ext.
    replace (be_dec a <? 126) with false by lia. replace (be_dec a <? 65536) with true by lia.
    split; [exact L'|]. split; [|change (2 ^ 64) with 18446744073709551616; lia].
    rewrite <- be_enc_2 by lia. rewrite <- Ha, be_enc_dec by exact Hl. reflexivity. }
  apply bind_ok in H as [[v r'] [Hg H]].
  apply try_get_ok in Hg as (a & -> & Ha & ->).
  apply bytes_ok_app in Hl as [Hl _].
  pose proof (be_dec_lt a Hl) as Hlt. unfold blen in Hlt. rewrite Ha in Hlt.
  change (256 ^ N.of_nat 8) with (2 ^ 64) in Hlt.
  destruct (N.leb_spec (be_dec a) 65535) as [B|B]; [discriminate|].
  injection H as <- <-. unfold spec_len7, spec_ext.
  replace (be_dec a <? 126) with false by lia. replace (be_dec a <? 65536) with false by lia.
  split; [lia|]. split; [|exact Hlt].
  rewrite <- be_enc_8 by exact Hlt. rewrite <- Ha, be_enc_dec by exact Hl. reflexivity.
Qed.

Lemma read_mask_inv b1 l key r : b1 < 256 -> bytes_ok l -> read_mask b1 l = Ok (key, r) ->
  N.land b1 128 = match key with Some _ => 128 | None => 0 end /\
  l = match key with Some (a, b, c, d) => [a; b; c; d] | None => [] end ++ r /\ key_ok key.
Proof.
  intros Hb Hl H. pose proof (low7_sweep b1 Hb) as S.
  repeat (apply andb_true_iff in S as [S ?]).
  unfold read_mask in H. destruct (N.eqb_spec (N.land b1 128) 128) as [E|E].
  - apply bind_ok in H as [[a l1] [G1 H]]. apply bind_ok in H as [[b l2] [G2 H]].
    apply bind_ok in H as [[c l3] [G3 H]]. apply bind_ok in H as [[d l4] [G4 H]].
    apply try_get_1_ok in G1, G2, G3, G4. subst. injection H as <- <-.
    repeat (apply bytes_ok_cons in Hl as [? Hl]). split; [exact E|]. split; [reflexivity|].
    cbn [key_ok]. auto.
  - injection H as <- <-. split; [|split; [reflexivity|exact I]]. lia.
Qed.

Lemma read_header_inv l h r : bytes_ok l -> read_header l = Ok (h, r) ->
  exists fin r1 r2 r3,
    h = hdr_of fin r1 r2 r3 (wh_opcode h) (wh_mask h) (wh_len h) /\
    l = spec_header fin r1 r2 r3 (wh_opcode h) (wh_mask h) (wh_len h) ++ r /\
    wh_opcode h < 16 /\ wh_len h < 2 ^ 64 /\ control_ok fin (wh_opcode h) (wh_len h) /\
    key_ok (wh_mask h).
Proof.
  intros Hl H. unfold read_header in H.
  apply bind_ok in H as [[b0 l1] [H0 H]]. apply bind_ok in H as [[b1 l2] [H1 H]].
  apply try_get_1_ok in H0, H1. subst.
  apply bytes_ok_cons in Hl as [Hb0 Hl]. apply bytes_ok_cons in Hl as [Hb1 Hl].
  apply bind_ok in H as [[n l3] [HL H]].
  apply (read_len_inv _ _ _ _ Hb1 Hl) in HL as (E7 & -> & Hn).
  apply bytes_ok_app in Hl as [_ Hl].
  pose proof (low4_sweep b0 Hb0) as S. repeat (apply andb_true_iff in S as [S ?]).
  set (f := flags_truncate b0) in *. set (op := N.land b0 15) in *.
  pose proof (flags_canon f ltac:(lia)) as C. replace (N.land f 15 =? 0) with true in C by lia.
  cbn [implb] in C. apply N.eqb_eq in C.
  destruct ((8 <=? op) && (126 <=? n)) eqn:C1; [discriminate|].
  destruct ((8 <=? op) && negb (fcontains f FIN)) eqn:C2; [discriminate|].
  apply bind_ok in H as [[key l4] [HM H]].
  apply (read_mask_inv _ _ _ _ Hb1 Hl) in HM as (E8 & -> & Hk).
  injection H as <- <-. cbn [wh_opcode wh_mask wh_len wh_flags].
  exists (fcontains f FIN), (fcontains f RSV1), (fcontains f RSV2), (fcontains f RSV3).
  split; [unfold hdr_of; rewrite <- C; reflexivity|].
  split.
  { unfold spec_header. rewrite <- !app_assoc. cbn [app].
    change (bit (fcontains f FIN) 128 + bit (fcontains f RSV1) 64 + bit (fcontains f RSV2) 32
            + bit (fcontains f RSV3) 16)
      with (flagbits (fcontains f FIN) (fcontains f RSV1) (fcontains f RSV2) (fcontains f RSV3)).
    rewrite <- C, <- E7.
    pose proof (low7_sweep b1 Hb1) as S7. repeat (apply andb_true_iff in S7 as [S7 ?]).
    f_equal; [lia|]. f_equal. destruct key as [[[[ka kb] kc] kd]|]; lia. }
  split; [lia|]. split; [exact Hn|]. split; [|exact Hk].
  intros Hc. split; [lia|]. destruct (fcontains f FIN); [reflexivity|].
  cbn [negb] in C2. lia.
Qed.

(** ** Masking *)
Lemma mask_data_from_shift k data i : mask_data_from k (i + 4) data = mask_data_from k i data.
Proof.
  revert i. induction data as [|b data IH]; intros i; [reflexivity|].
  cbn [mask_data_from]. f_equal.
  - unfold mkey_at. do 2 f_equal. replace (i + 4)%nat with (i + 1 * 4)%nat by lia.
    apply Nat.mod_add. lia.
  - apply (IH (S i)).
Qed.

Lemma mask_data_from_mod k data i : mask_data_from k (i mod 4) data = mask_data_from k i data.
Proof.
  rewrite (Nat.div_mod i 4) at 2 by lia.
  induction (i / 4)%nat as [|q IH].
  - reflexivity.
  - rewrite IH. replace (4 * S q + i mod 4)%nat with (4 * q + i mod 4 + 4)%nat by lia.
    symmetry. apply mask_data_from_shift.
Qed.

Lemma mask_loop_spec k src : forall pos,
  fst (mask_loop k pos src) = mask_data_from k pos src /\
  (snd (mask_loop k pos src) mod 4 = (pos + length src) mod 4)%nat.
Proof.
  induction src as [|b src IH]; intros pos.
  - cbn [mask_loop mask_data_from fst snd length]. rewrite Nat.add_0_r. auto.
  - cbn [mask_loop mask_data_from length].
    specialize (IH ((pos + 1) mod 4)%nat).
    destruct (mask_loop k ((pos + 1) mod 4) src) as [buf p]. cbn [fst snd] in *.
    destruct IH as [-> Hp]. split.
    + f_equal. rewrite mask_data_from_mod, Nat.add_1_r. reflexivity.
    + rewrite Hp, Nat.add_mod_idemp_l by lia. f_equal. lia.
Qed.

Lemma masker_put_spec m src :
  mk_out (masker_put m src) = mk_out m ++ mask_data_from (mk_key m) (mk_pos m) src /\
  mk_key (masker_put m src) = mk_key m /\
  (mk_pos (masker_put m src) mod 4 = (mk_pos m + length src) mod 4)%nat.
Proof.
  unfold masker_put. destruct (mask_loop_spec (mk_key m) src (mk_pos m)) as [H1 H2].
  destruct (mask_loop (mk_key m) (mk_pos m) src) as [buf p]. cbn [fst snd] in *. subst.
  cbn [mk_out mk_key mk_pos]. auto.
Qed.

Lemma mask_data_from_app k a b i :
  mask_data_from k i (a ++ b) = mask_data_from k i a ++ mask_data_from k (i + length a) b.
Proof.
  revert i. induction a as [|x a IH]; intros i; cbn [app mask_data_from length].
  - rewrite Nat.add_0_r. reflexivity.
  - rewrite IH. do 2 f_equal. f_equal. lia.
Qed.

Lemma masker_chunks chunks : forall m,
  mk_out (fold_left masker_put chunks m)
  = mk_out m ++ mask_data_from (mk_key m) (mk_pos m) (concat chunks).
Proof.
  induction chunks as [|c chunks IH]; intros m; cbn [fold_left concat].
  - cbn [mask_data_from]. rewrite app_nil_r. reflexivity.
  - rewrite IH. destruct (masker_put_spec m c) as (-> & -> & Hp).
    rewrite mask_data_from_app, <- app_assoc. do 2 f_equal.
    rewrite <- mask_data_from_mod, Hp, mask_data_from_mod. reflexivity.
Qed.

Lemma mask_data_from_length k data i : length (mask_data_from k i data) = length data.
Proof. revert i. induction data as [|b d IH]; intros i; cbn [mask_data_from length]; [reflexivity|]. rewrite IH. reflexivity. Qed.

Lemma mask_data_blen k data : blen (mask_data k data) = blen data.
Proof. unfold blen, mask_data. rewrite mask_data_from_length. reflexivity. Qed.

Lemma mask_data_spec a b c d data : mask_data (a, b, c, d) data = spec_mask a b c d data.
Proof.
  unfold mask_data, spec_mask.
  assert (G : forall i, mask_data_from (a, b, c, d) i data
    = map (fun ib : nat * N => N.lxor (snd ib) (nth (Nat.modulo (fst ib) 4) [a; b; c; d] 0))
          (combine (seq i (length data)) data)); [|apply G].
  induction data as [|x data IH]; intros i; [reflexivity|].
  cbn [mask_data_from length seq combine map fst snd]. f_equal. apply IH.
Qed.

Lemma mask_data_from_invol k data i : mask_data_from k i (mask_data_from k i data) = data.
Proof.
  revert i. induction data as [|x data IH]; intros i; [reflexivity|].
  cbn [mask_data_from]. rewrite IH, N.lxor_assoc, N.lxor_nilpotent, N.lxor_0_r. reflexivity.
Qed.

Lemma mask_data_invol k data : mask_data k (mask_data k data) = data.
Proof. apply mask_data_from_invol. Qed.

(** ** Data frames *)

Lemma dataframe_df_ok d : df_ok (dataframe_df d).
Proof. split; cbn [dataframe_df df_take df_chunks df_size concat]; [rewrite app_nil_r|]; reflexivity. Qed.

Lemma message_df_ok m : df_ok (message_df m).
Proof.
  split; cbn [message_df df_take df_chunks df_size]; destruct (m_code m); cbn [concat];
    rewrite ?app_nil_r; try reflexivity.
  - rewrite blen_app, be_enc_blen. change (N.of_nat 2) with 2. lia.
  - lia.
Qed.

Lemma owned_df_ok m : df_ok (owned_df m).
Proof.
  split; cbn [owned_df df_take df_chunks df_size]; destruct m as [s|s|[c|]|s|s]; cbn [concat];
    rewrite ?app_nil_r; try reflexivity.
  rewrite blen_app, be_enc_blen. change (N.of_nat 2) with 2. lia.
Qed.

Definition rsv_1 (d : dfable) := fst (fst (df_rsv d)).
Definition rsv_2 (d : dfable) := snd (fst (df_rsv d)).
Definition rsv_3 (d : dfable) := snd (df_rsv d).

Lemma df_flags_spec d : df_flags d = flagbits (df_last d) (rsv_1 d) (rsv_2 d) (rsv_3 d).
Proof.
  unfold df_flags, rsv_1, rsv_2, rsv_3. destruct (df_rsv d) as [[r1 r2] r3]. cbn [fst snd].
  destruct (df_last d), r1, r2, r3; reflexivity.
Qed.

Lemma fold_app_concat (l : list bytes) : forall acc,
  fold_left (fun out c => out ++ c) l acc = acc ++ concat l.
Proof.
  induction l as [|x l IH]; intros acc; cbn [fold_left concat]; [rewrite app_nil_r; reflexivity|].
  rewrite IH, app_assoc. reflexivity.
Qed.

Lemma write_to_spec d key :
  df_ok d -> df_opcode d < 16 -> (8 <= df_opcode d -> df_size d <= 125) -> df_size d < 2 ^ 64 ->
  write_to d key
  = Ok (spec_frame (df_last d) (rsv_1 d) (rsv_2 d) (rsv_3 d) (df_opcode d) key (df_take d)).
Proof.
  intros [Ht Hs] Hop Hc Hn. unfold write_to. rewrite df_flags_spec.
  change {| wh_flags := flagbits (df_last d) (rsv_1 d) (rsv_2 d) (rsv_3 d);
            wh_opcode := df_opcode d; wh_mask := key; wh_len := df_size d |}
    with (hdr_of (df_last d) (rsv_1 d) (rsv_2 d) (rsv_3 d) (df_opcode d) key (df_size d)).
  rewrite write_header_spec by assumption. cbn [bind]. unfold spec_frame. rewrite <- Hs.
  destruct key as [[[[a b] c] e]|].
  - rewrite masker_chunks. cbn [masker_new mk_out mk_key mk_pos].
    rewrite <- Ht. change (mask_data_from (a, b, c, e) 0 (df_take d)) with (mask_data (a, b, c, e) (df_take d)).
    rewrite mask_data_spec. reflexivity.
  - rewrite fold_app_concat, <- Ht. reflexivity.
Qed.

Lemma spec_ext_length n : n < 2 ^ 64 ->
  blen (spec_ext n) = if n <=? 125 then 0 else if n <=? 65535 then 2 else 8.
Proof.
  intros H. unfold spec_ext.
  destruct (N.ltb_spec n 126), (N.leb_spec n 125); try lia; [reflexivity|].
  destruct (N.ltb_spec n 65536), (N.leb_spec n 65535); try lia; reflexivity.
Qed.

Lemma spec_mask_length a b c d data : blen (spec_mask a b c d data) = blen data.
Proof. rewrite <- mask_data_spec. apply mask_data_blen. Qed.

Lemma frame_size_spec d key : df_ok d -> df_size d < 2 ^ 64 ->
  blen (spec_frame (df_last d) (rsv_1 d) (rsv_2 d) (rsv_3 d) (df_opcode d) key (df_take d))
  = frame_size d (match key with Some _ => true | None => false end).
Proof.
  intros [Ht Hs] Hn. unfold spec_frame, spec_header, frame_size. rewrite <- Hs.
  rewrite !blen_app, !blen_cons, blen_nil, spec_ext_length by exact Hn.
  destruct key as [[[[a b] c] e]|];
    rewrite ?spec_mask_length, ?blen_cons, ?blen_nil, <- Hs;
    destruct (df_size d <=? 125); try destruct (df_size d <=? 65535); lia.
Qed.

Lemma opcode_new_u8 o : opcode_new (opcode_u8 o) = Some o.
Proof. destruct o; reflexivity. Qed.

Lemma opcode_u8_lt o : opcode_u8 o < 16.
Proof. destruct o; reflexivity. Qed.

Lemma opcode_new_some n : n < 16 -> exists o, opcode_new n = Some o /\ opcode_u8 o = n.
Proof.
  intros H.
  assert (S : n = 0 \/ n = 1 \/ n = 2 \/ n = 3 \/ n = 4 \/ n = 5 \/ n = 6 \/ n = 7 \/ n = 8 \/ n = 9 \/
              n = 10 \/ n = 11 \/ n = 12 \/ n = 13 \/ n = 14 \/ n = 15) by lia.
  repeat (destruct S as [-> | S]; [eexists; split; reflexivity|]). subst. eexists; split; reflexivity.
Qed.

Lemma read_body_spec fin r1 r2 r3 o key n data :
  read_dataframe_body (hdr_of fin r1 r2 r3 (opcode_u8 o) key n) data
  = Ok {| d_fin := fin; d_rsv := (r1, r2, r3); d_op := o;
          d_data := match key with Some k => mask_data k data | None => data end |}.
Proof.
  unfold read_dataframe_body, hdr_of. cbn [wh_opcode wh_flags wh_mask].
  rewrite opcode_new_u8.
  destruct (flags_facts fin r1 r2 r3 0 ltac:(lia)) as (_ & _ & _ & -> & -> & -> & ->). reflexivity.
Qed.

Lemma read_dataframe_spec fin r1 r2 r3 o key payload r :
  control_ok fin (opcode_u8 o) (blen payload) -> blen payload < 2 ^ 64 ->
  read_dataframe (spec_frame fin r1 r2 r3 (opcode_u8 o) key payload ++ r)
  = Ok ({| d_fin := fin; d_rsv := (r1, r2, r3); d_op := o; d_data := payload |}, r).
Proof.
  intros Hc Hn. unfold read_dataframe, spec_frame. rewrite <- app_assoc.
  rewrite read_header_spec by (assumption || apply opcode_u8_lt). cbn [bind].
  cbn [hdr_of wh_len]. rewrite take_N_app.
  2: { destruct key as [[[[a b] c] d]|]; [apply spec_mask_length|reflexivity]. }
  fold (hdr_of fin r1 r2 r3 (opcode_u8 o) key (blen payload)). rewrite read_body_spec. cbn [bind].
  do 4 f_equal. destruct key as [[[[a b] c] d]|]; [|reflexivity].
  rewrite <- mask_data_spec. apply mask_data_invol.
Qed.

(** Every accepted frame has the RFC layout. *)
Lemma read_dataframe_inv l d r : bytes_ok l -> read_dataframe l = Ok (d, r) ->
  exists key,
    l = spec_frame (d_fin d) (fst (fst (d_rsv d))) (snd (fst (d_rsv d))) (snd (d_rsv d))
          (opcode_u8 (d_op d)) key (d_data d) ++ r /\
    control_ok (d_fin d) (opcode_u8 (d_op d)) (blen (d_data d)) /\
    blen (d_data d) < 2 ^ 64 /\ key_ok key.
Proof.
  intros Hl H. unfold read_dataframe in H. apply bind_ok in H as [[h l1] [Hh H]].
  apply (read_header_inv _ _ _ Hl) in Hh as (fin & r1 & r2 & r3 & Eh & -> & Hop & Hn & Hc & Hk).
  destruct (take_N (wh_len h) l1) as [[data l2]|] eqn:Et; [|discriminate].
  apply take_N_some in Et as [-> Hlen].
  apply bind_ok in H as [d' [Hb H]]. injection H as <- <-.
  destruct (opcode_new_some _ Hop) as (o & Ho & Eo).
  rewrite Eh, <- Eo, read_body_spec in Hb. injection Hb as <-.
  cbn [d_fin d_rsv d_op d_data fst snd]. exists (wh_mask h).
  assert (EL : blen (match wh_mask h with Some k => mask_data k data | None => data end) = wh_len h).
  { destruct (wh_mask h); [rewrite mask_data_blen|]; exact Hlen. }
  rewrite Eo, EL. split; [|auto].
  unfold spec_frame. rewrite EL, <- app_assoc. do 2 f_equal.
  destruct (wh_mask h) as [[[[a b] c] e]|]; [|reflexivity].
  rewrite <- mask_data_spec, mask_data_invol. reflexivity.
Qed.

(** ** Truncation *)
Lemma try_get_short n l : (length l < n)%nat -> try_get n l = Err (EIo UnexpectedEof).
Proof. intros H. unfold try_get. apply take_n_none in H. rewrite H. reflexivity. Qed.

Lemma prefix_split (p x y s : bytes) : p ++ s = x ++ y ->
  (exists t, x = p ++ t /\ (t <> [] \/ x = p)) /\ (length p <= length x)%nat \/
  (exists t, p = x ++ t /\ y = t ++ s).
Proof.
  intros H. destruct (Nat.le_gt_cases (length p) (length x)) as [L|L].
  - left. split; [|exact L].
    exists (skipn (length p) x).
    assert (E : firstn (length p) x = p).
    { replace (firstn (length p) x) with (firstn (length p) (x ++ y)).
      - rewrite <- H, firstn_app, Nat.sub_diag, firstn_all. cbn [firstn]. apply app_nil_r.
      - rewrite firstn_app. replace (length p - length x)%nat with 0%nat by lia.
        cbn [firstn]. apply app_nil_r. }
    split; [transitivity (firstn (length p) x ++ skipn (length p) x); [symmetry; apply firstn_skipn|rewrite E; reflexivity]|].
    destruct (skipn (length p) x) eqn:Es; [right|left; discriminate].
    rewrite <- (firstn_skipn (length p) x), Es, E. apply app_nil_r.
  - right. exists (skipn (length x) p).
    assert (E : firstn (length x) p = x).
    { replace (firstn (length x) p) with (firstn (length x) (p ++ s)).
      - rewrite H, firstn_app, Nat.sub_diag, firstn_all. cbn [firstn]. apply app_nil_r.
      - rewrite firstn_app. replace (length x - length p)%nat with 0%nat by lia.
        cbn [firstn]. apply app_nil_r. }
    assert (Ep : p = x ++ skipn (length x) p) by (transitivity (firstn (length x) p ++ skipn (length x) p); [symmetry; apply firstn_skipn|rewrite E; reflexivity]).
    split; [exact Ep|].
    rewrite Ep, <- app_assoc in H. apply app_inv_head in H. symmetry. exact H.
Qed.

(** A strict prefix of a header is an I/O error. *)
Lemma read_header_trunc fin r1 r2 r3 op key n p s :
  op < 16 -> control_ok fin op n -> n < 2 ^ 64 -> s <> [] ->
  spec_header fin r1 r2 r3 op key n = p ++ s ->
  read_header p = Err (EIo UnexpectedEof).
Proof.
  intros Hop Hc Hn Hs E. unfold read_header.
  unfold spec_header in E. cbn [app] in E.
  destruct p as [|b0 p]; [reflexivity|]. rewrite try_get_1; cbn [bind].
  destruct p as [|b1 p]; [reflexivity|]. rewrite try_get_1; cbn [bind].
  cbn [app] in E. injection E as E0 E1 E.
  set (m := match key with Some _ => 128 | None => 0 end) in *.
  assert (Hm : m = 0 \/ m = 128) by (unfold m; destruct key; auto).
  set (mk := match key with Some (a, b, c, d) => [a; b; c; d] | None => [] end) in *.
  destruct (flags_facts fin r1 r2 r3 op Hop) as (_ & Ho & Ht & Hfin & _).
  subst b0 b1.
  change (bit fin 128 + bit r1 64 + bit r2 32 + bit r3 16) with (flagbits fin r1 r2 r3).
  rewrite Ho, Ht.
  symmetry in E. destruct (prefix_split _ _ _ _ E) as [[(t & Ex & Hor) Hlen]|(t & Ep & Ey)].
  - (* inside the extended length, or just after it *)
    destruct Hor as [Hne|Heq].
    + assert (Hlt : (length p < length (spec_ext n))%nat).
      { rewrite Ex, app_length. destruct t; [congruence|]. cbn [length]. lia. }
      assert (L7 : N.land (m + spec_len7 n) 127 = spec_len7 n).
      { assert (L : spec_len7 n < 128).
        { unfold spec_len7. destruct (N.ltb_spec n 126); [lia|]. destruct (n <? 65536); lia. }
        pose proof (len7_sweep (spec_len7 n) ltac:(lia)) as S.
        replace (spec_len7 n <? 128) with true in S by lia. cbn [implb] in S.
        repeat (apply andb_true_iff in S as [S ?]).
        destruct Hm as [-> | ->]; lia. }
      unfold read_len. rewrite L7. unfold spec_ext in Hlt. unfold spec_len7.
      destruct (N.ltb_spec n 126); [cbn [length] in Hlt; lia|].
      destruct (N.ltb_spec n 65536).
      * change (126 <=? 125) with false. change (126 =? 126) with true. cbv iota.
        rewrite try_get_short by exact Hlt. reflexivity.
      * change (127 <=? 125) with false. change (127 =? 126) with false. cbv iota.
        rewrite try_get_short by exact Hlt. reflexivity.
    + subst p. destruct (read_len_spec m n [] Hm Hn) as [HL HM]. rewrite app_nil_r in HL.
      rewrite HL; cbn [bind].
      apply app_inv_head in E. 
      replace ((8 <=? op) && (126 <=? n)) with false.
      2: { destruct (N.leb_spec 8 op) as [G|G]; [|reflexivity].
           destruct (Hc G) as [G' _]. cbn [andb]. symmetry. lia. }
      replace ((8 <=? op) && negb (fcontains (flagbits fin r1 r2 r3) FIN)) with false.
      2: { destruct (N.leb_spec 8 op) as [G|G]; [|reflexivity].
           destruct (Hc G) as [_ G']. rewrite Hfin, G'. reflexivity. }
      unfold read_mask. rewrite HM.
      destruct key as [[[[a b] c] d]|]; [|unfold mk in E; congruence].
      reflexivity.
  - subst p. destruct (read_len_spec m n t Hm Hn) as [HL HM]. rewrite HL; cbn [bind].
    replace ((8 <=? op) && (126 <=? n)) with false.
    2: { destruct (N.leb_spec 8 op) as [G|G]; [|reflexivity].
         destruct (Hc G) as [G' _]. cbn [andb]. symmetry. lia. }
    replace ((8 <=? op) && negb (fcontains (flagbits fin r1 r2 r3) FIN)) with false.
    2: { destruct (N.leb_spec 8 op) as [G|G]; [|reflexivity].
         destruct (Hc G) as [_ G']. rewrite Hfin, G'. reflexivity. }
    unfold read_mask. rewrite HM.
    destruct key as [[[[a b] c] d]|]; unfold m, mk in *.
    + change (128 =? 128) with true. cbv iota.
      destruct t as [|x0 t]; [reflexivity|]. rewrite try_get_1; cbn [bind].
      destruct t as [|x1 t]; [reflexivity|]. rewrite try_get_1; cbn [bind].
      destruct t as [|x2 t]; [reflexivity|]. rewrite try_get_1; cbn [bind].
      destruct t as [|x3 t]; [reflexivity|]. cbn [app] in Ey.
      injection Ey as _ _ _ _ Ey. destruct t, s; try discriminate. congruence.
    + destruct t, s; try discriminate. congruence.
Qed.

Lemma read_dataframe_trunc fin r1 r2 r3 o key payload p s :
  control_ok fin (opcode_u8 o) (blen payload) -> blen payload < 2 ^ 64 -> s <> [] ->
  spec_frame fin r1 r2 r3 (opcode_u8 o) key payload = p ++ s ->
  read_dataframe p = Err (EIo UnexpectedEof).
Proof.
  intros Hc Hn Hs E. unfold read_dataframe. unfold spec_frame in E.
  set (hd := spec_header fin r1 r2 r3 (opcode_u8 o) key (blen payload)) in *.
  set (bd := match key with Some (a, b, c, d) => spec_mask a b c d payload | None => payload end) in *.
  assert (Hbd : blen bd = blen payload).
  { unfold bd. destruct key as [[[[a b] c] d]|]; [apply spec_mask_length|reflexivity]. }
  assert (E' : p ++ s = hd ++ bd) by (symmetry; exact E). clear E. rename E' into E. clearbody bd. destruct (prefix_split _ _ _ _ E) as [[(t & Ex & Hor) Hlen]|(t & Ep & Ey)].
  - destruct Hor as [Hne|Heq].
    + rewrite (read_header_trunc fin r1 r2 r3 (opcode_u8 o) key (blen payload) p t); auto.
      apply opcode_u8_lt.
    + subst p. rewrite <- (app_nil_r hd).
      unfold hd. rewrite read_header_spec by (assumption || apply opcode_u8_lt). cbn [bind].
      cbn [hdr_of wh_len]. replace (take_N (blen payload) []) with (@None (bytes * bytes)); [reflexivity|].
      symmetry. apply take_N_none. rewrite blen_nil, <- Hbd.
      apply app_inv_head in E. rewrite <- E. destruct s; [congruence|]. rewrite blen_cons. lia.
  - subst p. unfold hd. rewrite read_header_spec by (assumption || apply opcode_u8_lt). cbn [bind].
    cbn [hdr_of wh_len]. replace (take_N (blen payload) t) with (@None (bytes * bytes)); [reflexivity|].
    symmetry. apply take_N_none. rewrite <- Hbd, Ey, blen_app.
    destruct s; [congruence|]. rewrite blen_cons. lia.
Qed.

(** ** Totality and limits *)
Lemma read_header_total l : (exists h r, read_header l = Ok (h, r)) \/ (exists e, read_header l = Err e).
Proof.
  unfold read_header.
  destruct (try_get_cases 1 l) as [(a & r & _ & _ & ->)|[_ ->]]; cbn [bind]; [|eauto].
  destruct (try_get_cases 1 r) as [(a' & r' & _ & _ & ->)|[_ ->]]; cbn [bind]; [|eauto].
  assert (R : (exists n q, read_len (be_dec a') r' = Ok (n, q)) \/ (exists e, read_len (be_dec a') r' = Err e)).
  { unfold read_len. destruct (_ <=? 125); [eauto|]. destruct (_ =? 126).
    - destruct (try_get_cases 2 r') as [(x & y & _ & _ & ->)|[_ ->]]; cbn [bind]; [|eauto].
      destruct (_ <=? 125); eauto.
    - destruct (try_get_cases 8 r') as [(x & y & _ & _ & ->)|[_ ->]]; cbn [bind]; [|eauto].
      destruct (_ <=? 65535); eauto. }
  destruct R as [(n & q & ->)|[e ->]]; cbn [bind]; [|eauto].
  destruct (_ && _); [eauto|]. destruct (_ && _); [eauto|].
  unfold read_mask. destruct (_ =? 128); [|cbn [bind]; eauto].
  destruct (try_get_cases 1 q) as [(? & q1 & _ & _ & ->)|[_ ->]]; cbn [bind]; [|eauto].
  destruct (try_get_cases 1 q1) as [(? & q2 & _ & _ & ->)|[_ ->]]; cbn [bind]; [|eauto].
  destruct (try_get_cases 1 q2) as [(? & q3 & _ & _ & ->)|[_ ->]]; cbn [bind]; [|eauto].
  destruct (try_get_cases 1 q3) as [(? & q4 & _ & _ & ->)|[_ ->]]; cbn [bind]; eauto.
Qed.

Lemma read_header_opcode l h r : read_header l = Ok (h, r) -> wh_opcode h < 16.
Proof.
  unfold read_header. intros H.
  apply bind_ok in H as [[b0 l1] [_ H]]. apply bind_ok in H as [[b1 l2] [_ H]].
  apply bind_ok in H as [[n l3] [_ H]].
  destruct (_ && _); [discriminate|]. destruct (_ && _); [discriminate|].
  apply bind_ok in H as [[k l4] [_ H]]. injection H as <- _. cbn [wh_opcode].
  change 15 with (N.ones 4). rewrite N.land_ones. apply N.mod_lt. discriminate.
Qed.

Lemma read_dataframe_total l :
  (exists d r, read_dataframe l = Ok (d, r)) \/ (exists e, read_dataframe l = Err e).
Proof.
  unfold read_dataframe. destruct (read_header_total l) as [(h & r & E)|[e E]]; rewrite E; cbn [bind]; [|eauto].
  destruct (take_N _ _) as [[data l2]|]; [|eauto].
  unfold read_dataframe_body. destruct (opcode_new_some _ (read_header_opcode _ _ _ E)) as (o & -> & _).
  cbn [bind]. eauto.
Qed.

Lemma read_limit_total lim l :
  (exists d r, read_dataframe_with_limit lim l = Ok (d, r)) \/ (exists e, read_dataframe_with_limit lim l = Err e).
Proof.
  unfold read_dataframe_with_limit.
  destruct (read_header_total l) as [(h & r & E)|[e E]]; rewrite E; cbn [bind]; [|eauto].
  destruct (_ <? _); [eauto|].
  destruct (take_N _ _) as [[data l2]|]; [|eauto].
  unfold read_dataframe_body. destruct (opcode_new_some _ (read_header_opcode _ _ _ E)) as (o & -> & _).
  cbn [bind]. eauto.
Qed.

Lemma read_limit_ok lim l d r :
  read_dataframe_with_limit lim l = Ok (d, r) <->
  read_dataframe l = Ok (d, r) /\ blen (d_data d) <= lim.
Proof.
  unfold read_dataframe_with_limit, read_dataframe.
  destruct (read_header_total l) as [(h & q & E)|[e E]]; rewrite E; cbn [bind];
    [|split; [discriminate|intros [? _]; discriminate]].
  destruct (take_N (wh_len h) q) as [[data l2]|] eqn:Et.
  - apply take_N_some in Et as [_ Hlen].
    unfold read_dataframe_body. destruct (opcode_new_some _ (read_header_opcode _ _ _ E)) as (o & -> & _).
    cbn [bind].
    assert (EL : forall k : option mkey, blen (match k with Some k => mask_data k data | None => data end) = wh_len h).
    { intros [k|]; [rewrite mask_data_blen|]; exact Hlen. }
    destruct (N.ltb_spec lim (wh_len h)) as [L|L].
    + split; [discriminate|]. intros [H Hd]. injection H as <- _. cbn [d_data] in Hd.
      rewrite EL in Hd. lia.
    + split; [|tauto]. intros H. split; [exact H|]. injection H as <- _. cbn [d_data].
      rewrite EL. exact L.
  - split; [destruct (_ <? _); discriminate|]. intros [? _]. discriminate.
Qed.

(** ** Messages *)
Lemma collect_frames_ok frames : forall (first : bool) data,
  Forall no_rsv frames ->
  (if first then Forall (fun d => df_opcode d = 0) (tl frames) else Forall (fun d => df_opcode d = 0) frames) ->
  collect_frames first frames data = Ok (data ++ concat (map df_take frames)).
Proof.
  induction frames as [|d frames IH]; intros first data Hr Ho.
  - cbn [collect_frames map concat]. rewrite app_nil_r. reflexivity.
  - cbn [collect_frames map concat]. inversion Hr as [|? ? Hd Hr']; subst.
    rewrite Hd. replace (negb first && negb (df_opcode d =? opcode_u8 Continuation)) with false.
    + rewrite (IH false) ; [rewrite app_assoc; reflexivity|exact Hr'|].
      destruct first; [exact Ho|]. inversion Ho; assumption.
    + destruct first; [reflexivity|]. inversion Ho as [|? ? Ho1 _]; subst. rewrite Ho1. reflexivity.
Qed.

Lemma collect_frames_inv frames : forall (first : bool) data x,
  collect_frames first frames data = Ok x ->
  Forall no_rsv frames /\
  (if first then Forall (fun d => df_opcode d = 0) (tl frames) else Forall (fun d => df_opcode d = 0) frames) /\
  x = data ++ concat (map df_take frames).
Proof.
  induction frames as [|d frames IH]; intros first data x H.
  - cbn [collect_frames] in H. injection H as <-. cbn [map concat]. rewrite app_nil_r.
    split; [constructor|]. split; [destruct first; constructor|reflexivity].
  - cbn [collect_frames] in H.
    destruct (negb first && negb (df_opcode d =? opcode_u8 Continuation)) eqn:E; [discriminate|].
    destruct (df_rsv d) as [[[|] [|]] [|]] eqn:Er; try discriminate.
    apply IH in H as (Hr & Ho & ->). cbn [map concat].
    split; [constructor; assumption|]. split.
    + destruct first; [exact Ho|]. constructor; [|exact Ho].
      cbn [negb andb opcode_u8] in E. lia.
    + rewrite app_assoc. reflexivity.
Qed.

Lemma msg_from_frames_spec d rest :
  no_rsv d -> Forall no_rsv rest -> Forall (fun d => df_opcode d = 0) rest ->
  msg_from_dataframes (d :: rest)
  = build_message (opcode_new (df_opcode d)) (df_take d ++ concat (map df_take rest)).
Proof.
  intros Hd Hr Ho. unfold msg_from_dataframes.
  rewrite collect_frames_ok; [|constructor; assumption|exact Ho]. reflexivity.
Qed.

Lemma msg_from_frames_inv frames m : msg_from_dataframes frames = Ok m ->
  exists d rest, frames = d :: rest /\ Forall no_rsv frames /\
    Forall (fun d => df_opcode d = 0) rest /\
    build_message (opcode_new (df_opcode d)) (concat (map df_take frames)) = Ok m.
Proof.
  destruct frames as [|d rest]; [discriminate|]. unfold msg_from_dataframes. intros H.
  apply bind_ok in H as [x [Hx H]]. apply collect_frames_inv in Hx as (Hr & Ho & ->).
  exists d, rest. auto.
Qed.

Lemma build_message_inv op data m : build_message op data = Ok m ->
  (op = Some OText /\ utf8_valid data = true /\ m = msg_text data) \/
  (op = Some OBinary /\ m = msg_binary data) \/
  (op = Some OPing /\ m = msg_ping data) \/
  (op = Some OPong /\ m = msg_pong data) \/
  (op = Some OClose /\ data = [] /\ m = msg_close) \/
  (op = Some OClose /\ exists a b reason, data = a :: b :: reason /\ utf8_valid reason = true /\
     m = msg_close_because (be_dec [a; b]) reason).
Proof.
  destruct op as [[]|]; cbn [build_message]; try discriminate.
  - destruct (utf8_valid data) eqn:E; [|discriminate]. intros H. injection H as <-. auto.
  - intros H. injection H as <-. auto.
  - destruct data as [|x data].
    + intros H. injection H as <-. do 4 right. left. auto.
    + intros H. apply bind_ok in H as [[c r] [Hg H]].
      apply try_get_ok in Hg as (a & E & Ha & ->).
      destruct a as [|a0 [|a1 [|]]]; try discriminate. cbn [app] in E.
      destruct (utf8_valid r) eqn:Er; [|discriminate]. injection H as <-.
      do 5 right. split; [reflexivity|]. exists a0, a1, r. auto.
  - intros H. injection H as <-. tauto.
  - intros H. injection H as <-. tauto.
Qed.

Lemma build_close code reason : code < 65536 -> utf8_valid reason = true ->
  build_message (Some OClose) (be_enc 2 code ++ reason) = Ok (msg_close_because code reason).
Proof.
  intros Hc Hr. cbn [build_message].
  destruct (be_enc 2 code ++ reason) as [|x l] eqn:E; [cbn [be_enc app] in E; discriminate|].
  rewrite <- E, try_get_app by exact Hc. cbn [bind]. rewrite Hr. reflexivity.
Qed.

(** ** Close codes *)
Lemma close_roundtrip c : close_u16 (close_of_u16 c) = c.
Proof.
  unfold close_of_u16.
  repeat match goal with |- close_u16 (match ?x with _ => _ end) = _ => destruct x; try reflexivity end.
Qed.

(** ** Statements in terms of plain bits *)
Lemma testbit_contains f : f < 256 ->
  Bool.eqb (N.testbit f 7) (fcontains f FIN) && Bool.eqb (N.testbit f 6) (fcontains f RSV1)
  && Bool.eqb (N.testbit f 5) (fcontains f RSV2) && Bool.eqb (N.testbit f 4) (fcontains f RSV3) = true.
Proof. revert f. apply byte_sweep. vm_compute. reflexivity. Qed.

Lemma hdr_canon h : wh_flags h < 256 -> N.land (wh_flags h) 15 = 0 ->
  h = hdr_of (N.testbit (wh_flags h) 7) (N.testbit (wh_flags h) 6) (N.testbit (wh_flags h) 5)
        (N.testbit (wh_flags h) 4) (wh_opcode h) (wh_mask h) (wh_len h).
Proof.
  intros H1 H2. destruct h as [f o m n]. cbn [wh_flags wh_opcode wh_mask wh_len] in *.
  pose proof (testbit_contains f H1) as S. repeat (apply andb_true_iff in S as [S ?]).
  repeat match goal with H : Bool.eqb _ _ = true |- _ => apply eqb_prop in H; rewrite H end.
  pose proof (flags_canon f H1) as C. rewrite H2 in C. change (0 =? 0) with true in C.
  cbn [implb] in C. apply N.eqb_eq in C. unfold hdr_of. f_equal. exact C.
Qed.

Lemma hdr_of_flags fin r1 r2 r3 op key n :
  let h := hdr_of fin r1 r2 r3 op key n in
  wh_flags h < 256 /\ N.land (wh_flags h) 15 = 0 /\ N.testbit (wh_flags h) 7 = fin /\
  N.testbit (wh_flags h) 6 = r1 /\ N.testbit (wh_flags h) 5 = r2 /\ N.testbit (wh_flags h) 4 = r3.
Proof. destruct fin, r1, r2, r3; cbn; repeat split; reflexivity. Qed.

Lemma ws_header_roundtrip h rest :
  wh_flags h < 256 -> N.land (wh_flags h) 15 = 0 -> wh_opcode h < 16 -> wh_len h < 2 ^ 64 ->
  control_ok (N.testbit (wh_flags h) 7) (wh_opcode h) (wh_len h) ->
  write_header h
  = Ok (spec_header (N.testbit (wh_flags h) 7) (N.testbit (wh_flags h) 6) (N.testbit (wh_flags h) 5)
          (N.testbit (wh_flags h) 4) (wh_opcode h) (wh_mask h) (wh_len h)) /\
  (forall w, write_header h = Ok w -> read_header (w ++ rest) = Ok (h, rest)).
Proof.
  intros Hf Hl Ho Hn Hc.
  assert (W : write_header h = Ok (spec_header (N.testbit (wh_flags h) 7) (N.testbit (wh_flags h) 6)
    (N.testbit (wh_flags h) 5) (N.testbit (wh_flags h) 4) (wh_opcode h) (wh_mask h) (wh_len h))).
  { transitivity (write_header (hdr_of (N.testbit (wh_flags h) 7) (N.testbit (wh_flags h) 6)
      (N.testbit (wh_flags h) 5) (N.testbit (wh_flags h) 4) (wh_opcode h) (wh_mask h) (wh_len h))).
    - f_equal. apply hdr_canon; assumption.
    - apply write_header_spec; [exact Ho|intros G; apply Hc, G|exact Hn]. }
  split; [exact W|]. intros w E. rewrite W in E. injection E as <-.
  rewrite read_header_spec by assumption. rewrite <- (hdr_canon h Hf Hl). reflexivity.
Qed.

Lemma ws_header_canonical l h rest : bytes_ok l -> read_header l = Ok (h, rest) ->
  exists w, write_header h = Ok w /\ l = w ++ rest /\
    wh_opcode h < 16 /\ wh_len h < 2 ^ 64 /\ wh_flags h < 256 /\ N.land (wh_flags h) 15 = 0 /\
    control_ok (N.testbit (wh_flags h) 7) (wh_opcode h) (wh_len h).
Proof.
  intros Hl H. apply (read_header_inv _ _ _ Hl) in H as (fin & r1 & r2 & r3 & Eh & El & Ho & Hn & Hc & Hk).
  destruct (hdr_of_flags fin r1 r2 r3 (wh_opcode h) (wh_mask h) (wh_len h)) as (F1 & F2 & F3 & F4 & F5 & F6).
  rewrite <- Eh in *. eexists. split; [|split; [exact El|]].
  - rewrite Eh. apply write_header_spec; [exact Ho|intros G; apply Hc, G|exact Hn].
  - rewrite F3. auto 6.
Qed.

Lemma ws_header_truncated h w p s :
  wh_flags h < 256 -> N.land (wh_flags h) 15 = 0 -> wh_opcode h < 16 -> wh_len h < 2 ^ 64 ->
  control_ok (N.testbit (wh_flags h) 7) (wh_opcode h) (wh_len h) ->
  write_header h = Ok w -> w = p ++ s -> s <> [] -> read_header p = Err (EIo UnexpectedEof).
Proof.
  intros Hf Hl Ho Hn Hc Hw E Hs.
  destruct (ws_header_roundtrip h [] Hf Hl Ho Hn Hc) as [Hw' _].
  rewrite Hw in Hw'. injection Hw' as ->.
  eapply read_header_trunc; eassumption.
Qed.

(** ** Data frames through the wire *)
Lemma write_dataframe_spec d key : frame_ok d ->
  write_to (dataframe_df d) key
  = Ok (spec_frame (d_fin d) (fst (fst (d_rsv d))) (snd (fst (d_rsv d))) (snd (d_rsv d))
          (opcode_u8 (d_op d)) key (d_data d)).
Proof.
  intros [Hc Hn]. rewrite write_to_spec; [reflexivity|apply dataframe_df_ok|apply opcode_u8_lt| |exact Hn].
  intros G. apply Hc, G.
Qed.

Lemma dataframe_roundtrip d key rest : frame_ok d ->
  exists w, write_to (dataframe_df d) key = Ok w /\
    w = spec_frame (d_fin d) (fst (fst (d_rsv d))) (snd (fst (d_rsv d))) (snd (d_rsv d))
          (opcode_u8 (d_op d)) key (d_data d) /\
    read_dataframe (w ++ rest) = Ok (d, rest) /\
    blen w = frame_size (dataframe_df d) (match key with Some _ => true | None => false end).
Proof.
  intros Hf. eexists. split; [apply write_dataframe_spec, Hf|]. split; [reflexivity|]. destruct Hf as [Hc Hn].
  split.
  - rewrite read_dataframe_spec by assumption. destruct d as [f [[a b] c] o dd]. reflexivity.
  - apply (frame_size_spec (dataframe_df d) key (dataframe_df_ok d) Hn).
Qed.

Lemma dataframe_prefix d key w p s : frame_ok d ->
  write_to (dataframe_df d) key = Ok w -> w = p ++ s -> s <> [] ->
  read_dataframe p = Err (EIo UnexpectedEof).
Proof.
  intros Hf Hw E Hs. rewrite (write_dataframe_spec d key Hf) in Hw. injection Hw as <-.
  destruct Hf. eapply read_dataframe_trunc; eassumption.
Qed.

Lemma read_limit_prefix lim d key w p s : frame_ok d ->
  write_to (dataframe_df d) key = Ok w -> w = p ++ s -> s <> [] ->
  exists e, read_dataframe_with_limit lim p = Err e.
Proof.
  intros Hf Hw E Hs. pose proof (dataframe_prefix _ _ _ _ _ Hf Hw E Hs) as Hp.
  destruct (read_limit_total lim p) as [(d' & r & H)|H]; [|exact H].
  apply read_limit_ok in H as [H _]. congruence.
Qed.

Lemma read_dataframe_ext l d r x : bytes_ok l -> read_dataframe l = Ok (d, r) ->
  read_dataframe (l ++ x) = Ok (d, r ++ x).
Proof.
  intros Hl H. apply (read_dataframe_inv _ _ _ Hl) in H as (key & -> & Hc & Hn & _).
  rewrite <- app_assoc, read_dataframe_spec by assumption.
  destruct d as [f [[a b] c] o dd]. reflexivity.
Qed.

Lemma frames_roundtrip ds rest : Forall (fun x => frame_ok (fst x)) ds ->
  exists w, write_frames ds = Ok w /\ read_frames (length ds) (w ++ rest) = Ok (map fst ds, rest).
Proof.
  induction ds as [|[d k] ds IH]; intros H.
  - exists []. split; reflexivity.
  - inversion H as [|? ? Hd Hds]; subst. cbn [fst] in Hd.
    destruct (IH Hds) as (w' & Hw' & Hr').
    destruct (dataframe_roundtrip d k (w' ++ rest) Hd) as (w & Hw & _ & Hr & _).
    exists (w ++ w'). cbn [write_frames length read_frames map fst]. rewrite Hw; cbn [bind].
    rewrite Hw'; cbn [bind]. split; [reflexivity|].
    rewrite <- app_assoc, Hr; cbn [bind]. rewrite Hr'; cbn [bind]. reflexivity.
Qed.

(** ** Fragmentation *)
Lemma fragments_facts pieces : forall op, op < 16 ->
  Forall (fun d => no_rsv (dataframe_df (frag_frame d))) (spec_fragments op pieces) /\
  (op = 0 -> Forall (fun d => df_opcode (dataframe_df (frag_frame d)) = 0) (spec_fragments op pieces)) /\
  concat (map (fun x => df_take (dataframe_df (frag_frame x))) (spec_fragments op pieces)) = concat pieces.
Proof.
  induction pieces as [|p pieces IH]; intros op Hop.
  - repeat split; constructor.
  - destruct pieces as [|q pieces].
    + cbn [spec_fragments map concat]. split; [repeat constructor|]. split; [|reflexivity].
      intros ->. repeat constructor.
    + destruct (IH 0 ltac:(lia)) as (I1 & I2 & I3).
      change (spec_fragments op (p :: q :: pieces)) with ((false, op, p) :: spec_fragments 0 (q :: pieces)).
      split; [constructor; [reflexivity|exact I1]|]. split.
      * intros ->. constructor; [reflexivity|]. apply I2. reflexivity.
      * cbn [map concat]. cbn [map concat] in I3. rewrite I3. reflexivity.
Qed.

Lemma fragmentation_independent o pieces : pieces <> [] ->
  msg_from_dataframes (map (fun x => dataframe_df (frag_frame x)) (spec_fragments (opcode_u8 o) pieces))
  = msg_from_dataframes [dataframe_df {| d_fin := true; d_rsv := (false, false, false); d_op := o;
                                         d_data := concat pieces |}].
Proof.
  intros Hne.
  assert (G : forall fr rest, Forall (fun d => no_rsv (dataframe_df (frag_frame d))) (fr :: rest) ->
    Forall (fun d => df_opcode (dataframe_df (frag_frame d)) = 0) rest ->
    msg_from_dataframes (map (fun x => dataframe_df (frag_frame x)) (fr :: rest))
    = build_message (opcode_new (df_opcode (dataframe_df (frag_frame fr))))
        (concat (map (fun x => df_take (dataframe_df (frag_frame x))) (fr :: rest)))).
  { intros fr rest H1 H2. inversion H1 as [|? ? H3 H4]; subst. cbn [map concat].
    rewrite msg_from_frames_spec; [|exact H3| |]; [rewrite map_map; reflexivity| |].
    - apply Forall_map. exact H4.
    - apply Forall_map. exact H2. }
  destruct (fragments_facts pieces (opcode_u8 o) (opcode_u8_lt o)) as (F1 & _ & F3).
  assert (S : exists b p rest, spec_fragments (opcode_u8 o) pieces = (b, opcode_u8 o, p) :: rest /\
    Forall (fun d => df_opcode (dataframe_df (frag_frame d)) = 0) rest).
  { destruct pieces as [|p [|q pieces]]; [congruence| |].
    - exists true, p, []. split; [reflexivity|constructor].
    - exists false, p, (spec_fragments 0 (q :: pieces)). split; [reflexivity|].
      destruct (fragments_facts (q :: pieces) 0 ltac:(lia)) as (_ & I2 & _). apply I2. reflexivity. }
  destruct S as (b & p & rest & ES & HR). rewrite ES in *.
  rewrite G by assumption. rewrite F3.
  rewrite msg_from_frames_spec by (reflexivity || constructor).
  cbn [map concat]. rewrite app_nil_r. cbn [dataframe_df df_opcode df_take frag_frame d_op fst snd d_data].
  rewrite !opcode_new_u8. reflexivity.
Qed.

(** ** Messages through the wire *)
Definition type_opcode (t : mtype) : opcode :=
  match t with TText => OText | TBinary => OBinary | TPing => OPing | TPong => OPong | TClose => OClose end.

Lemma mtype_opcode t : mtype_u8 t = opcode_u8 (type_opcode t).
Proof. destruct t; reflexivity. Qed.

Lemma message_frame m : api_message m ->
  8 <= mtype_u8 (m_op m) -> df_size (message_df m) <= 125.
Proof.
  intros H. inversion H; subst; cbn [message_df df_size m_payload m_code m_op mtype_u8 msg_text msg_binary
    msg_ping msg_pong msg_close msg_close_because]; rewrite ?blen_nil; lia.
Qed.

Lemma message_size m : api_message m -> df_size (message_df m) < 2 ^ 64.
Proof. intros H. inversion H; subst; cbn [message_df df_size m_payload m_code msg_text msg_binary msg_ping msg_pong msg_close msg_close_because];
  rewrite ?blen_nil; change (2 ^ 64) with 18446744073709551616 in *; lia. Qed.

Lemma message_wire m key rest : api_message m ->
  exists w, write_to (message_df m) key = Ok w /\
    blen w = frame_size (message_df m) (match key with Some _ => true | None => false end) /\
    read_dataframe (w ++ rest)
    = Ok ({| d_fin := true; d_rsv := (false, false, false); d_op := type_opcode (m_op m);
             d_data := df_take (message_df m) |}, rest).
Proof.
  intros H. pose proof (message_size m H) as Hn. pose proof (message_frame m H) as Hc.
  destruct (message_df_ok m) as [Ht Hs].
  eexists. split; [|split].
  - apply write_to_spec; [apply message_df_ok| |exact Hc|exact Hn].
    cbn [message_df df_opcode]. rewrite mtype_opcode. apply opcode_u8_lt.
  - apply frame_size_spec; [apply message_df_ok|exact Hn].
  - change (df_opcode (message_df m)) with (mtype_u8 (m_op m)). rewrite mtype_opcode.
    rewrite read_dataframe_spec.
    + reflexivity.
    + intros G. split; [|reflexivity]. rewrite <- Hs. apply Hc. rewrite mtype_opcode. exact G.
    + rewrite <- Hs. exact Hn.
Qed.

Lemma message_rebuild m : api_message m ->
  msg_from_dataframes [dataframe_df {| d_fin := true; d_rsv := (false, false, false);
     d_op := type_opcode (m_op m); d_data := df_take (message_df m) |}] = Ok m.
Proof.
  intros H. rewrite msg_from_frames_spec by (reflexivity || constructor).
  cbn [map concat]. rewrite app_nil_r. cbn [dataframe_df df_opcode df_take d_op d_data].
  rewrite opcode_new_u8.
  inversion H; subst;
    cbn [message_df df_take m_payload m_code m_op type_opcode msg_text msg_binary msg_ping msg_pong msg_close msg_close_because];
    try reflexivity.
  - cbn [build_message]. apply utf8_valid_iff in H0. rewrite H0. reflexivity.
  - apply build_close; [assumption|]. apply utf8_valid_iff. assumption.
Qed.

Lemma message_roundtrip m key rest : api_message m ->
  exists w d, write_to (message_df m) key = Ok w /\ read_dataframe (w ++ rest) = Ok (d, rest) /\
    msg_from_dataframes [dataframe_df d] = Ok m.
Proof.
  intros H. destruct (message_wire m key rest H) as (w & Hw & _ & Hr).
  exists w. eexists. split; [exact Hw|]. split; [exact Hr|]. apply message_rebuild, H.
Qed.

(** OwnedMessage. *)
Lemma owned_df_message m : owned_df m = 
  {| df_last := df_last (message_df (message_of_owned m));
     df_opcode := df_opcode (message_df (message_of_owned m));
     df_rsv := df_rsv (message_df (message_of_owned m));
     df_size := df_size (message_df (message_of_owned m));
     df_chunks := df_chunks (owned_df m);
     df_take := df_take (message_df (message_of_owned m)) |}.
Proof.
  destruct m as [s|s|[c|]|s|s];
    cbn [owned_df message_df message_of_owned m_op m_code m_payload msg_text msg_binary msg_close
         msg_close_because msg_ping msg_pong df_last df_opcode df_rsv df_size df_chunks df_take];
    rewrite ?N.add_0_r; reflexivity.
Qed.

Lemma owned_api m : api_owned m -> api_message (message_of_owned m).
Proof.
  destruct m as [s|s|[c|]|s|s]; cbn [api_owned message_of_owned]; intros H; constructor; tauto.
Qed.

Lemma owned_write m key : api_owned m -> write_to (owned_df m) key = write_to (message_df (message_of_owned m)) key.
Proof.
  intros H. apply owned_api in H.
  pose proof (message_size _ H) as Hn. pose proof (message_frame _ H) as Hc.
  assert (Ho : mtype_u8 (m_op (message_of_owned m)) < 16) by (rewrite mtype_opcode; apply opcode_u8_lt).
  rewrite (write_to_spec (message_df (message_of_owned m)));
    [|apply message_df_ok|exact Ho|exact Hc|exact Hn].
  assert (E : df_opcode (owned_df m) = mtype_u8 (m_op (message_of_owned m))) by (rewrite owned_df_message; reflexivity).
  assert (Es : df_size (owned_df m) = df_size (message_df (message_of_owned m))) by (rewrite owned_df_message; reflexivity).
  rewrite write_to_spec; [|apply owned_df_ok|rewrite E; exact Ho|rewrite E, Es; exact Hc|rewrite Es; exact Hn].
  rewrite owned_df_message. reflexivity.
Qed.

Lemma owned_back m : api_owned m -> owned_of_message (message_of_owned m) = m.
Proof.
  destruct m as [s|s|[[c r]|]|s|s]; cbn [api_owned message_of_owned owned_of_message m_op m_code m_payload
    msg_text msg_binary msg_close msg_close_because msg_ping msg_pong cd_code cd_reason]; intros H; try reflexivity.
  - rewrite utf8_lossy_valid; [reflexivity|]. apply utf8_valid_iff. tauto.
  - rewrite utf8_lossy_valid; [reflexivity|]. apply utf8_valid_iff. tauto.
Qed.

Lemma owned_roundtrip m key rest : api_owned m ->
  exists w d, write_to (owned_df m) key = Ok w /\ read_dataframe (w ++ rest) = Ok (d, rest) /\
    owned_from_dataframes [dataframe_df d] = Ok m.
Proof.
  intros H. destruct (message_roundtrip _ key rest (owned_api m H)) as (w & d & Hw & Hr & Hm).
  exists w, d. split; [rewrite owned_write by exact H; exact Hw|]. split; [exact Hr|].
  unfold owned_from_dataframes. rewrite Hm. cbn [bind]. rewrite owned_back by exact H. reflexivity.
Qed.

(** A message cut into fragments, every fragment written with its own mask,
    read back frame by frame and reassembled. *)
Lemma fragment_frame_ok o pieces : opcode_u8 o < 8 -> Forall (fun p => blen p < 2 ^ 64) pieces ->
  Forall (fun x => frame_ok (frag_frame x)) (spec_fragments (opcode_u8 o) pieces).
Proof.
  intros Ho H.
  assert (G : forall n, n < 8 -> Forall (fun x => frame_ok (frag_frame x)) (spec_fragments n pieces)); [|apply G, Ho].
  clear Ho o. induction H as [|p pieces Hp Hps IH]; intros n Hn; [constructor|].
  assert (F : forall b, frame_ok (frag_frame (b, n, p))).
  { intros b. destruct (opcode_new_some n ltac:(lia)) as (o & Eo & En). split; [|exact Hp].
    intros G. cbn [frag_frame d_op fst snd] in G. rewrite Eo in G. lia. }
  destruct pieces as [|q pieces].
  - constructor; [apply F|constructor].
  - constructor; [apply F|]. apply (IH 0). lia.
Qed.

Lemma fragments_wire o pieces keys rest : opcode_u8 o < 8 -> pieces <> [] ->
  Forall (fun p => blen p < 2 ^ 64) pieces ->
  length keys = length pieces ->
  exists w ds,
    write_frames (combine (map frag_frame (spec_fragments (opcode_u8 o) pieces)) keys) = Ok w /\
    read_frames (length pieces) (w ++ rest) = Ok (ds, rest) /\
    msg_from_dataframes (map dataframe_df ds)
    = msg_from_dataframes [dataframe_df {| d_fin := true; d_rsv := (false, false, false); d_op := o;
                                           d_data := concat pieces |}].
Proof.
  intros Ho Hne Hs Hk.
  assert (L : forall ps n, length (spec_fragments n ps) = length ps).
  { induction ps as [|p ps IH]; intros n; [reflexivity|]. destruct ps as [|q ps]; [reflexivity|].
    change (spec_fragments n (p :: q :: ps)) with ((false, n, p) :: spec_fragments 0 (q :: ps)).
    cbn [length]. rewrite IH. reflexivity. }
  assert (M : map fst (combine (map frag_frame (spec_fragments (opcode_u8 o) pieces)) keys)
              = map frag_frame (spec_fragments (opcode_u8 o) pieces)).
  { assert (MF : forall (A B : Type) (a : list A) (b : list B), length a = length b -> map fst (combine a b) = a).
    { induction a as [|x a IH]; intros [|y b] E; try discriminate; [reflexivity|].
      cbn [combine map fst]. rewrite IH by (injection E; auto). reflexivity. }
    apply MF. rewrite map_length, L. symmetry. exact Hk. }
  destruct (frames_roundtrip (combine (map frag_frame (spec_fragments (opcode_u8 o) pieces)) keys) rest)
    as (w & Hw & Hr).
  { pose proof (fragment_frame_ok o pieces Ho Hs) as F. apply Forall_map in F.
    rewrite <- M in F. apply (proj1 (Forall_map fst frame_ok _)) in F. exact F. }
  exists w, (map frag_frame (spec_fragments (opcode_u8 o) pieces)). split; [exact Hw|].
  rewrite combine_length, map_length, L, Hk, Nat.min_id, M in Hr. split; [exact Hr|].
  rewrite map_map. apply fragmentation_independent, Hne.
Qed.

(** ** Acceptance of frame sequences *)
Lemma opcode_new_inv n o : opcode_new n = Some o -> n = opcode_u8 o.
Proof.
  unfold opcode_new. intros H.
  repeat match type of H with match ?x with _ => _ end = _ => destruct x; try discriminate H end;
    injection H as <-; reflexivity.
Qed.

Lemma from_frames_text frames s : owned_from_dataframes frames = Ok (OwText s) ->
  is_utf8 s /\ s = concat (map df_take frames) /\
  exists d rest, frames = d :: rest /\ df_opcode d = 1.
Proof.
  unfold owned_from_dataframes. intros H. apply bind_ok in H as [m [Hm H]].
  apply msg_from_frames_inv in Hm as (d & rest & E & _ & _ & Hb).
  apply build_message_inv in Hb.
  destruct Hb as [(Ho & Hu & ->)|[(Ho & ->)|[(Ho & ->)|[(Ho & ->)|[(Ho & Hd & ->)|(Ho & a & b & r & Hd & Hu & ->)]]]]];
    try discriminate H.
  cbn [owned_of_message msg_text m_op m_payload] in H. rewrite utf8_lossy_valid in H by exact Hu.
  injection H as <-. split; [apply utf8_valid_iff, Hu|]. split; [reflexivity|].
  exists d, rest. split; [exact E|].
  exact (opcode_new_inv _ _ Ho).
Qed.

Lemma from_frames_close frames c : owned_from_dataframes frames = Ok (OwClose (Some c)) ->
  is_utf8 (cd_reason c) /\
  exists a b, concat (map df_take frames) = a :: b :: cd_reason c /\ cd_code c = a * 256 + b.
Proof.
  unfold owned_from_dataframes. intros H. apply bind_ok in H as [m [Hm H]].
  apply msg_from_frames_inv in Hm as (d & rest & E & _ & _ & Hb).
  apply build_message_inv in Hb.
  destruct Hb as [(Ho & Hu & ->)|[(Ho & ->)|[(Ho & ->)|[(Ho & ->)|[(Ho & Hd & ->)|(Ho & a & b & r & Hd & Hu & ->)]]]]];
    try discriminate H.
  cbn [owned_of_message msg_close_because m_op m_code m_payload] in H. rewrite utf8_lossy_valid in H by exact Hu.
  injection H as <-. cbn [cd_reason cd_code]. split; [apply utf8_valid_iff, Hu|].
  exists a, b. split; [exact Hd|]. reflexivity.
Qed.

Lemma from_frames_text_iff d rest :
  df_opcode d = 1 -> Forall no_rsv (d :: rest) -> Forall (fun d => df_opcode d = 0) rest ->
  let s := concat (map df_take (d :: rest)) in
  (is_utf8 s -> msg_from_dataframes (d :: rest) = Ok (msg_text s)
             /\ owned_from_dataframes (d :: rest) = Ok (OwText s)) /\
  (~ is_utf8 s -> msg_from_dataframes (d :: rest) = Err (EExtension "Convert Utf8 error")
             /\ owned_from_dataframes (d :: rest) = Err (EExtension "Convert Utf8 error")).
Proof.
  intros Ho Hr Hc s. inversion Hr as [|? ? Hd Hr']; subst.
  unfold owned_from_dataframes. rewrite msg_from_frames_spec by assumption.
  rewrite Ho. change (opcode_new 1) with (Some OText). cbn [build_message].
  change (df_take d ++ concat (map df_take rest)) with s.
  split; intros Hu.
  - apply utf8_valid_iff in Hu. rewrite Hu. cbn [bind]. split; [reflexivity|].
    cbn [owned_of_message msg_text m_op m_payload]. rewrite utf8_lossy_valid by exact Hu. reflexivity.
  - destruct (utf8_valid s) eqn:E; [apply utf8_valid_iff in E; contradiction|]. split; reflexivity.
Qed.

Lemma from_frames_accept frames m : msg_from_dataframes frames = Ok m ->
  frames <> [] /\ Forall no_rsv frames /\ Forall (fun d => df_opcode d = 0) (tl frames) /\
  (exists d rest, frames = d :: rest /\ df_opcode d = mtype_u8 (m_op m)) /\
  (bytes_ok (concat (map df_take frames)) -> concat (map df_take frames) = df_take (message_df m)).
Proof.
  intros H. apply msg_from_frames_inv in H as (d & rest & -> & Hr & Ho & Hb).
  split; [discriminate|]. split; [exact Hr|]. split; [exact Ho|].
  apply build_message_inv in Hb.
  destruct Hb as [(Hp & Hu & ->)|[(Hp & ->)|[(Hp & ->)|[(Hp & ->)|[(Hp & Hd & ->)|(Hp & a & b & r & Hd & Hu & ->)]]]]];
    apply opcode_new_inv in Hp; (split; [exists d, rest; split; [reflexivity|exact Hp]|]);
    intros Hk; try reflexivity.
  - exact Hd.
  - rewrite Hd in *. cbn [message_df df_take msg_close_because m_code m_payload].
    change 2%nat with (length [a; b]). rewrite be_enc_dec; [reflexivity|].
    apply bytes_ok_cons in Hk as [Ha Hk]. apply bytes_ok_cons in Hk as [Hb' _].
    repeat (apply bytes_ok_cons; split); try assumption. apply bytes_ok_nil.
Qed.

Lemma close_injective a b : close_of_u16 a = close_of_u16 b -> a = b.
Proof. intros H. rewrite <- (close_roundtrip a), <- (close_roundtrip b), H. reflexivity. Qed.
