(** Proofs for S_WsAll.v (C104). *)
From Coq Require Import Ascii String NArith ZArith Lia Bool List ZifyBool ZifyNat ZifyN.
From Verif Require Import Base S_Utf8 P_Base M_Ws S_Ws S_WsApi P_Ws S_WsAll.
Import ListNotations.
Local Open Scope N_scope.

Lemma bind_err {A B} (x : res A) (f : A -> res B) e :
  bind x f = Err e -> x = Err e \/ exists a, x = Ok a /\ f a = Err e.
Proof. destruct x as [a|e'| |]; cbn [bind]; intros H; try discriminate; [right; eauto|left; injection H as <-; reflexivity]. Qed.

(** ** The two fixed octets *)
Lemma octet0 b : b < 256 -> exists fin r1 r2 r3 op, op < 16 /\ b = bit fin 128 + bit r1 64 + bit r2 32 + bit r3 16 + op.
Proof.
  intros H. pose proof (low4_sweep b H) as S. repeat (apply andb_true_iff in S as [S ?]).
  set (f := flags_truncate b) in *. set (op := N.land b 15) in *.
  pose proof (flags_canon f ltac:(lia)) as C. replace (N.land f 15 =? 0) with true in C by lia.
  cbn [implb] in C. apply N.eqb_eq in C.
  exists (fcontains f FIN), (fcontains f RSV1), (fcontains f RSV2), (fcontains f RSV3), op.
  split; [lia|]. unfold flagbits in C. lia.
Qed.

Lemma octet1 b : b < 256 -> exists m l7, l7 < 128 /\ b = bit m 128 + l7.
Proof.
  intros H. pose proof (low7_sweep b H) as S. repeat (apply andb_true_iff in S as [S ?]).
  exists (N.land b 128 =? 128), (N.land b 127). split; [lia|]. unfold bit. destruct (N.eqb_spec (N.land b 128) 128); lia.
Qed.

Lemma octet1_parts m l7 : l7 < 128 -> N.land (bit m 128 + l7) 127 = l7 /\ N.land (bit m 128 + l7) 128 = bit m 128.
Proof.
  intros H. pose proof (len7_sweep l7 ltac:(lia)) as S. replace (l7 <? 128) with true in S by lia.
  cbn [implb] in S. repeat (apply andb_true_iff in S as [S ?]). destruct m; cbn [bit]; lia.
Qed.

Lemma two_octets a : bytes_ok a -> length a = 2%nat -> be_dec a <= 125 -> a = [0; be_dec a].
Proof.
  intros Hb L B. rewrite <- (be_enc_dec a Hb) at 1. rewrite L, be_enc_2 by lia.
  assert (be_dec a / 256 = 0) as -> by (apply N.div_small; lia). rewrite N.mod_small by lia. reflexivity.
Qed.

Lemma eight_octets a : bytes_ok a -> length a = 8%nat -> be_dec a <= 65535 ->
  a = [0; 0; 0; 0; 0; 0; be_dec a / 256; be_dec a mod 256].
Proof.
  intros Hb L B. rewrite <- (be_enc_dec a Hb) at 1. rewrite L, be_enc_8 by (change (2 ^ 64) with 18446744073709551616; lia).
  set (n := be_dec a) in *.
  assert (Z : forall k, 65536 <= k -> (n / k) mod 256 = 0) by (intros k Hk; rewrite N.div_small by lia; reflexivity).
  rewrite (N.div_small n (2 ^ 56)) by (change (2 ^ 56) with 72057594037927936; lia).
  rewrite !Z by (vm_compute; discriminate).
  change (2 ^ 8) with 256. rewrite (N.mod_small (n / 256)) by (apply N.div_lt_upper_bound; lia). reflexivity.
Qed.

(** ** The length field *)
Lemma read_len_err m l7 l e : l7 < 128 -> bytes_ok l -> read_len (bit m 128 + l7) l = Err e ->
  (l7 = 126 /\ (length l < 2)%nat /\ e = more_data) \/
  (l7 = 127 /\ (length l < 8)%nat /\ e = more_data) \/
  (l7 = 126 /\ e = EWs (DataFrameError "Invalid data frame length") /\ exists n r, n < 126 /\ l = [0; n] ++ r) \/
  (l7 = 127 /\ e = EWs (DataFrameError "Invalid data frame length") /\
     exists n r, n < 65536 /\ l = [0; 0; 0; 0; 0; 0; n / 256; n mod 256] ++ r).
Proof.
  intros H7 Hl H. destruct (octet1_parts m l7 H7) as [E7 _]. unfold read_len in H. rewrite E7 in H. cbv zeta in H.
  destruct (N.leb_spec l7 125) as [L|L]; [discriminate|].
  destruct (N.eqb_spec l7 126) as [L'|L'].
  - destruct (try_get_cases 2 l) as [(a & r & -> & La & G)|[La G]]; rewrite G in H; cbn [bind] in H.
    + destruct (N.leb_spec (be_dec a) 125) as [B|B]; [|discriminate]. injection H as <-.
      right. right. left. split; [exact L'|]. split; [reflexivity|].
      apply bytes_ok_app in Hl as [Ha _]. exists (be_dec a), r. split; [lia|]. rewrite <- (two_octets a Ha La B). reflexivity.
    + injection H as <-. left. auto.
  - destruct (try_get_cases 8 l) as [(a & r & -> & La & G)|[La G]]; rewrite G in H; cbn [bind] in H.
    + destruct (N.leb_spec (be_dec a) 65535) as [B|B]; [|discriminate]. injection H as <-.
      right. right. right. split; [lia|]. split; [reflexivity|].
      apply bytes_ok_app in Hl as [Ha _]. exists (be_dec a), r. split; [lia|]. rewrite <- (eight_octets a Ha La B). reflexivity.
    + injection H as <-. right. left. split; [lia|]. auto.
Qed.

Lemma read_len_ok m n r : n < 2 ^ 64 -> read_len (bit m 128 + spec_len7 n) (spec_ext n ++ r) = Ok (n, r).
Proof. intros H. apply (read_len_spec (bit m 128) n r); [destruct m; auto|exact H]. Qed.

Lemma spec_len7_lt n : spec_len7 n < 128.
Proof. unfold spec_len7. destruct (N.ltb_spec n 126); [lia|]. destruct (n <? 65536); lia. Qed.

Lemma read_mask_err m l7 l e : l7 < 128 -> read_mask (bit m 128 + l7) l = Err e <-> m = true /\ (length l < 4)%nat /\ e = more_data.
Proof.
  intros H7. destruct (octet1_parts m l7 H7) as [_ E8]. unfold read_mask. rewrite E8.
  destruct m; cbn [bit].
  - change (128 =? 128) with true. cbv iota.
    destruct l as [|a [|b [|c [|d l]]]]; unfold try_get; cbn [take_n bind length]; split; intros H;
      repeat match goal with H : _ /\ _ |- _ => destruct H end; subst;
      try (injection H as <-); try discriminate; try lia; try reflexivity;
      repeat split; try lia; try reflexivity.
  - change (0 =? 128) with false. cbv iota. split; [discriminate|]. intros [H _]. discriminate.
Qed.

(** ** Headers *)
(** Reading a header whose length field is in order. *)
Lemma read_lead fin r1 r2 r3 op m n r : op < 16 -> n < 2 ^ 64 ->
  read_header (lead fin r1 r2 r3 op m n ++ r) =
  if (8 <=? op) && (126 <=? n) then Err (EWs (DataFrameError "Control frame length too long"))
  else if (8 <=? op) && negb fin then Err (EWs (ProtocolError "Illegal fragmented control frame"))
  else ' (key, l4) <- read_mask (bit m 128 + spec_len7 n) r ;; Ok (hdr_of fin r1 r2 r3 op key n, l4).
Proof.
  intros Hop Hn. unfold read_header, lead. rewrite <- app_assoc. cbn [app].
  rewrite try_get_1; cbn [bind]. rewrite try_get_1; cbn [bind]. cbv zeta.
  change (bit fin 128 + bit r1 64 + bit r2 32 + bit r3 16) with (flagbits fin r1 r2 r3).
  destruct (flags_facts fin r1 r2 r3 op Hop) as (_ & Ho & Ht & Hf & _). rewrite Ho, Ht.
  rewrite read_len_ok by exact Hn. cbn [bind]. rewrite Hf. reflexivity.
Qed.

(** Every complete start of a header has that form. *)
Lemma read_header_shape l : bytes_ok l ->
  (exists e, head_bad l e /\ read_header l = Err e /\ (e = more_data \/ e = EWs (DataFrameError "Invalid data frame length")) /\
     (l = [] \/ (exists b, l = [b]) \/ exists b m t x, l = b :: bit m 128 + t :: x /\ (t = 126 \/ t = 127))) \/
  (exists fin r1 r2 r3 op m n r, op < 16 /\ n < 2 ^ 64 /\ l = lead fin r1 r2 r3 op m n ++ r).
Proof.
  intros Hl. destruct l as [|b0 [|b1 l]].
  - left. exists more_data. split; [constructor|]. split; [reflexivity|]. auto.
  - left. exists more_data. split; [constructor|]. split; [reflexivity|]. split; [auto|]. right. left. eauto.
  - apply bytes_ok_cons in Hl as [H0 Hl]. apply bytes_ok_cons in Hl as [H1 Hl].
    destruct (octet1 b1 H1) as (m & l7 & H7 & ->).
    assert (R : read_header (b0 :: bit m 128 + l7 :: l) =
      ' (len, l3) <- read_len (bit m 128 + l7) l ;;
      if (8 <=? N.land b0 15) && (126 <=? len) then Err (EWs (DataFrameError "Control frame length too long"))
      else if (8 <=? N.land b0 15) && negb (fcontains (flags_truncate b0) FIN)
      then Err (EWs (ProtocolError "Illegal fragmented control frame"))
      else ' (mask, l4) <- read_mask (bit m 128 + l7) l3 ;;
        Ok ({| wh_flags := flags_truncate b0; wh_opcode := N.land b0 15; wh_mask := mask; wh_len := len |}, l4)).
    { unfold read_header. rewrite try_get_1; cbn [bind]. rewrite try_get_1; cbn [bind]. reflexivity. }
    destruct (read_len (bit m 128 + l7) l) as [[n r]|e| |] eqn:E.
    + right. destruct (octet0 b0 H0) as (fin & r1 & r2 & r3 & op & Hop & ->).
      assert (Hb : bit m 128 + l7 < 256) by (destruct m; cbn [bit]; lia).
      apply (read_len_inv _ _ _ _ Hb Hl) in E as (E7 & -> & Hn).
      destruct (octet1_parts m l7 H7) as [E7' _]. rewrite E7' in E7. subst l7.
      exists fin, r1, r2, r3, op, m, n, r. split; [exact Hop|]. split; [exact Hn|].
      unfold lead. rewrite <- app_assoc. reflexivity.
    + left. exists e. cbn [bind] in R. pose proof (read_len_err m l7 l e H7 Hl E) as C.
      assert (T : l7 = 126 \/ l7 = 127) by (destruct C as [C|[C|[C|C]]]; destruct C as [C _]; auto).
      split; [|split; [exact R|split]].
      * destruct C as [(-> & L & ->)|[(-> & L & ->)|[(-> & -> & n & r & Hn & ->)|(-> & -> & n & r & Hn & ->)]]].
        -- apply hb_len2. exact L.
        -- apply hb_len8. exact L.
        -- apply hb_long2. exact Hn.
        -- apply hb_long8. exact Hn.
      * destruct C as [(_ & _ & ->)|[(_ & _ & ->)|[(_ & -> & _)|(_ & -> & _)]]]; auto.
      * right. right. exists b0, m, l7, l. auto.
    + exfalso. unfold read_len in E. destruct (octet1_parts m l7 H7) as [E7 _]. rewrite E7 in E. cbv zeta in E.
      destruct (l7 <=? 125); [discriminate|]. destruct (l7 =? 126).
      * destruct (try_get_cases 2 l) as [(a & r & -> & La & G)|[La G]]; rewrite G in E; cbn [bind] in E; [|discriminate].
        destruct (be_dec a <=? 125); discriminate.
      * destruct (try_get_cases 8 l) as [(a & r & -> & La & G)|[La G]]; rewrite G in E; cbn [bind] in E; [|discriminate].
        destruct (be_dec a <=? 65535); discriminate.
    + exfalso. unfold read_len in E. destruct (octet1_parts m l7 H7) as [E7 _]. rewrite E7 in E. cbv zeta in E.
      destruct (l7 <=? 125); [discriminate|]. destruct (l7 =? 126).
      * destruct (try_get_cases 2 l) as [(a & r & -> & La & G)|[La G]]; rewrite G in E; cbn [bind] in E; [|discriminate].
        destruct (be_dec a <=? 125); discriminate.
      * destruct (try_get_cases 8 l) as [(a & r & -> & La & G)|[La G]]; rewrite G in E; cbn [bind] in E; [|discriminate].
        destruct (be_dec a <=? 65535); discriminate.
Qed.

Lemma long2_len m n r : n < 126 -> read_len (bit m 128 + 126) ([0; n] ++ r) = Err (EWs (DataFrameError "Invalid data frame length")).
Proof.
  intros H. destruct (octet1_parts m 126 ltac:(lia)) as [E7 _]. unfold read_len. rewrite E7. cbv zeta.
  change (126 <=? 125) with false. change (126 =? 126) with true. cbv iota.
  replace [0; n] with (be_enc 2 n); [|rewrite be_enc_2 by lia; rewrite N.div_small, N.mod_small by lia; reflexivity].
  rewrite try_get_app by (change (256 ^ N.of_nat 2) with 65536; lia). cbn [bind]. replace (n <=? 125) with true by lia. reflexivity.
Qed.

Lemma long8_len m n r : n < 65536 ->
  read_len (bit m 128 + 127) ([0; 0; 0; 0; 0; 0; n / 256; n mod 256] ++ r) = Err (EWs (DataFrameError "Invalid data frame length")).
Proof.
  intros H. destruct (octet1_parts m 127 ltac:(lia)) as [E7 _]. unfold read_len. rewrite E7. cbv zeta.
  change (127 <=? 125) with false. change (127 =? 126) with false. cbv iota.
  replace [0; 0; 0; 0; 0; 0; n / 256; n mod 256] with (be_enc 8 n).
  2: { rewrite be_enc_8 by (change (2 ^ 64) with 18446744073709551616; lia).
       assert (Z : forall k, 65536 <= k -> (n / k) mod 256 = 0) by (intros k Hk; rewrite N.div_small by lia; reflexivity).
       rewrite (N.div_small n (2 ^ 56)) by (change (2 ^ 56) with 72057594037927936; lia).
       rewrite !Z by (vm_compute; discriminate).
       change (2 ^ 8) with 256. rewrite (N.mod_small (n / 256)) by (apply N.div_lt_upper_bound; lia). reflexivity. }
  rewrite try_get_app by (change (256 ^ N.of_nat 8) with 18446744073709551616; lia). cbn [bind]. replace (n <=? 65535) with true by lia. reflexivity.
Qed.

Lemma head_bad_read l e : head_bad l e -> read_header l = Err e.
Proof.
  intros H. destruct H as [|b|b0 m x L|b0 m x L|b0 m n r Hn|b0 m n r Hn|fin r1 r2 r3 op m n r Ho Hn|r1 r2 r3 op m n r Ho Hn|fin r1 r2 r3 op n x Ho Hn Hc L].
  - reflexivity.
  - reflexivity.
  - unfold read_header. rewrite try_get_1; cbn [bind]. rewrite try_get_1; cbn [bind]. cbv zeta.
    unfold read_len. destruct (octet1_parts m 126 ltac:(lia)) as [E7 _]. rewrite E7. cbv zeta.
    change (126 <=? 125) with false. change (126 =? 126) with true. cbv iota. rewrite try_get_short by exact L. reflexivity.
  - unfold read_header. rewrite try_get_1; cbn [bind]. rewrite try_get_1; cbn [bind]. cbv zeta.
    unfold read_len. destruct (octet1_parts m 127 ltac:(lia)) as [E7 _]. rewrite E7. cbv zeta.
    change (127 <=? 125) with false. change (127 =? 126) with false. cbv iota. rewrite try_get_short by exact L. reflexivity.
  - unfold read_header. rewrite try_get_1; cbn [bind]. rewrite try_get_1; cbn [bind]. cbv zeta.
    rewrite long2_len by exact Hn. reflexivity.
  - unfold read_header. rewrite try_get_1; cbn [bind]. rewrite try_get_1; cbn [bind]. cbv zeta.
    rewrite long8_len by exact Hn. reflexivity.
  - rewrite read_lead by lia. replace ((8 <=? op) && (126 <=? n)) with true by lia. reflexivity.
  - rewrite read_lead by (change (2 ^ 64) with 18446744073709551616; lia). replace ((8 <=? op) && (126 <=? n)) with false by lia.
    replace ((8 <=? op) && negb false) with true by (cbn [negb]; lia). reflexivity.
  - rewrite read_lead by lia. unfold control_ok in Hc.
    replace ((8 <=? op) && (126 <=? n)) with false.
    2: { destruct (N.leb_spec 8 op) as [G|G]; [|reflexivity]. destruct (Hc G) as [G' _]. cbn [andb]. symmetry. lia. }
    replace ((8 <=? op) && negb fin) with false.
    2: { destruct (N.leb_spec 8 op) as [G|G]; [|reflexivity]. destruct (Hc G) as [_ G']. rewrite G'. reflexivity. }
    rewrite (proj2 (read_mask_err true (spec_len7 n) x more_data (spec_len7_lt n))) by auto. reflexivity.
Qed.

Lemma header_bad_iff l e : bytes_ok l -> read_header l = Err e <-> head_bad l e.
Proof.
  intros Hl. split; [|apply head_bad_read]. intros H.
  destruct (read_header_shape l Hl) as [(e' & B & R & _)|(fin & r1 & r2 & r3 & op & m & n & r & Ho & Hn & ->)].
  - rewrite R in H. injection H as <-. exact B.
  - rewrite read_lead in H by assumption.
    destruct ((8 <=? op) && (126 <=? n)) eqn:C1.
    { injection H as <-. apply hb_control_length; lia. }
    destruct ((8 <=? op) && negb fin) eqn:C2.
    { injection H as <-. destruct fin; [cbn [negb] in C2; rewrite andb_false_r in C2; discriminate|].
      apply hb_control_part; lia. }
    apply bind_err in H as [H|([key l4] & _ & H)]; [|discriminate].
    apply (read_mask_err m (spec_len7 n) r e (spec_len7_lt n)) in H as (-> & L & ->).
    apply hb_key; [exact Ho|exact Hn| |exact L].
    intros G. split; [lia|]. destruct fin; [reflexivity|]. cbn [negb] in C2. lia.
Qed.

(** ** Frames *)
Definition read_frame (limit : option N) (l : bytes) : res (dataframe * bytes) :=
  match limit with None => read_dataframe l | Some lim => read_dataframe_with_limit lim l end.

Lemma body_no_err h x e : read_dataframe_body h x <> Err e.
Proof. unfold read_dataframe_body. destruct (opcode_new (wh_opcode h)); discriminate. Qed.

Lemma read_frame_eq limit l : read_frame limit l =
  ' (h, l1) <- read_header l ;;
  if match limit with Some lim => lim <? wh_len h | None => false end then Err (EIo InvalidData) else
  match take_N (wh_len h) l1 with
  | None => Err (EIo UnexpectedEof)
  | Some (data, l2) => d <- read_dataframe_body h data ;; Ok (d, l2)
  end.
Proof. destruct limit; reflexivity. Qed.

Lemma frame_bad_iff limit l e : bytes_ok l -> read_frame limit l = Err e <-> frame_bad limit l e.
Proof.
  intros Hl. rewrite read_frame_eq. split.
  - intros H. apply bind_err in H as [H|([h l1] & R & H)].
    { apply fb_head. apply header_bad_iff; assumption. }
    apply (read_header_inv l h l1 Hl) in R as (fin & r1 & r2 & r3 & Eh & -> & Ho & Hn & Hc & Hk).
    destruct (match limit with Some lim => lim <? wh_len h | None => false end) eqn:C.
    { injection H as <-. destruct limit as [lim|]; [|discriminate].
      apply (fb_limit (Some lim) lim); auto. lia. }
    destruct (take_N (wh_len h) l1) as [[data l2]|] eqn:T.
    { apply bind_err in H as [H|(d & _ & H)]; [|discriminate]. exfalso. exact (body_no_err _ _ _ H). }
    injection H as <-. apply fb_data; auto.
    + intros lim ->. lia.
    + apply take_N_none. exact T.
  - intros H. destruct H as [l e H|lim fin r1 r2 r3 op key n r E Hn Ho Hc Hk|fin r1 r2 r3 op key n x HL Hn Ho Hc Hk L].
    + apply (header_bad_iff l e Hl) in H. rewrite H. reflexivity.
    + rewrite read_header_spec by (assumption || lia). cbn [bind hdr_of wh_len]. rewrite E.
      replace (lim <? n) with true by lia. reflexivity.
    + rewrite read_header_spec by assumption. cbn [bind hdr_of wh_len].
      replace (match limit with Some lim => lim <? n | None => false end) with false.
      2: { destruct limit as [lim|]; [|reflexivity]. specialize (HL lim eq_refl). lia. }
      rewrite (proj2 (take_N_none n x)) by exact L. reflexivity.
Qed.

Lemma key_ok_read limit fin r1 r2 r3 op key data r : op < 16 -> key_ok key -> blen data < 2 ^ 64 ->
  (forall lim, limit = Some lim -> blen data <= lim) -> control_ok fin op (blen data) ->
  exists d, read_frame limit (spec_frame fin r1 r2 r3 op key data ++ r) = Ok (d, r) /\
    d_fin d = fin /\ d_rsv d = (r1, r2, r3) /\ opcode_u8 (d_op d) = op /\ d_data d = data.
Proof.
  intros Ho Hk Hn HL Hc. destruct (opcode_new_some op Ho) as (o & En & Eo).
  exists {| d_fin := fin; d_rsv := (r1, r2, r3); d_op := o; d_data := data |}. cbn [d_fin d_rsv d_op d_data].
  split; [|auto].
  pose proof (read_dataframe_spec fin r1 r2 r3 o key data r) as S. rewrite Eo in S. 
  destruct limit as [lim|]; cbn [read_frame].
  - apply read_limit_ok. split; [apply S; auto|]. cbn [d_data]. auto.
  - apply S; auto.
Qed.

(** ** Incomplete frames *)
Lemma lead_key fin r1 r2 r3 op (key : option mkey) n r :
  spec_header fin r1 r2 r3 op key n ++ r =
  lead fin r1 r2 r3 op (match key with Some _ => true | None => false end) n ++
    match key with Some (a, b, c, d) => [a; b; c; d] | None => [] end ++ r.
Proof. unfold spec_header, lead. destruct key as [[[[a b] c] d]|]; cbn [bit]; rewrite <- !app_assoc; reflexivity. Qed.

Lemma mask_len k data : forall i, length (mask_data_from k i data) = length data.
Proof. induction data as [|b data IH]; intros i; cbn [mask_data_from length]; [reflexivity|]. rewrite IH. reflexivity. Qed.

Lemma complete_frame fin r1 r2 r3 op (key : option mkey) n y : op < 16 -> control_ok fin op n -> n < 2 ^ 64 -> key_ok key -> blen y = n ->
  frame_good None (spec_header fin r1 r2 r3 op key n ++ y).
Proof.
  intros Ho Hc Hn Hk Ly. destruct key as [[[[a b] c] d]|].
  - exists fin, r1, r2, r3, op, (Some (a, b, c, d)), (mask_data (a, b, c, d) y), [].
    assert (L : blen (mask_data (a, b, c, d) y) = n) by (rewrite <- Ly; unfold blen; f_equal; apply mask_len).
    rewrite L. rewrite app_nil_r. unfold spec_frame. rewrite L, <- mask_data_spec, mask_data_invol.
    split; [reflexivity|]. repeat split; auto; try discriminate; try (apply Hk); apply Hc; assumption.
  - exists fin, r1, r2, r3, op, None, y, []. rewrite app_nil_r. unfold spec_frame. rewrite Ly.
    split; [reflexivity|]. repeat split; auto; try discriminate; apply Hc; assumption.
Qed.

Lemma zeros_len n : blen (repeat 0 (N.to_nat n)) = n.
Proof. unfold blen. rewrite repeat_length. lia. Qed.

Lemma complete_lead fin r1 r2 r3 op m n : op < 16 -> control_ok fin op n -> n < 2 ^ 64 ->
  exists x, frame_good None (lead fin r1 r2 r3 op m n ++ x).
Proof.
  intros Ho Hc Hn. set (key := if m then Some (0, 0, 0, 0) else None).
  exists (match key with Some (a, b, c, d) => [a; b; c; d] | None => [] end ++ repeat 0 (N.to_nat n)).
  replace m with (match key with Some _ => true | None => false end) by (unfold key; destruct m; reflexivity).
  rewrite <- lead_key. apply complete_frame; auto; [|apply zeros_len].
  unfold key. destruct m; cbn [key_ok]; [lia|exact I].
Qed.

Lemma be2_ext a : bytes_ok a -> length a = 2%nat -> 126 <= be_dec a -> be_dec a < 65536 /\ a = spec_ext (be_dec a) /\ spec_len7 (be_dec a) = 126.
Proof.
  intros Hb L G. pose proof (be_dec_lt a Hb) as Hlt. unfold blen in Hlt. rewrite L in Hlt. change (256 ^ N.of_nat 2) with 65536 in Hlt.
  split; [exact Hlt|]. unfold spec_ext, spec_len7. replace (be_dec a <? 126) with false by lia. replace (be_dec a <? 65536) with true by lia.
  rewrite <- be_enc_2 by lia. rewrite <- L, be_enc_dec by exact Hb. auto.
Qed.

Lemma be8_ext a : bytes_ok a -> length a = 8%nat -> 65536 <= be_dec a -> be_dec a < 2 ^ 64 /\ a = spec_ext (be_dec a) /\ spec_len7 (be_dec a) = 127.
Proof.
  intros Hb L G. pose proof (be_dec_lt a Hb) as Hlt. unfold blen in Hlt. rewrite L in Hlt. change (256 ^ N.of_nat 8) with (2 ^ 64) in Hlt.
  split; [exact Hlt|]. unfold spec_ext, spec_len7. replace (be_dec a <? 126) with false by lia. replace (be_dec a <? 65536) with false by lia.
  rewrite <- be_enc_8 by exact Hlt. rewrite <- L, be_enc_dec by exact Hb. auto.
Qed.

Lemma fill_ok x k : bytes_ok x -> bytes_ok (x ++ repeat 255 k).
Proof. intros H. apply bytes_ok_app. split; [exact H|]. apply Forall_forall. intros y Hy. apply repeat_spec in Hy. subst. reflexivity. Qed.

Lemma data_control_ok fin op n : op < 8 -> control_ok fin op n.
Proof. intros H G. lia. Qed.

Lemma more_data_open l : bytes_ok l -> frame_bad None l more_data -> (exists x, frame_good None (l ++ x)) \/ never_frame l.
Proof.
  intros Hl H. remember more_data as e eqn:Ee. destruct H as [l e H|lim fin r1 r2 r3 op key n r E|fin r1 r2 r3 op key n x HL Hn Ho Hc Hk L]; [|discriminate|].
  - destruct H as [|b|b0 m x L|b0 m x L|b0 m n r Hn|b0 m n r Hn|fin r1 r2 r3 op m n r Ho Hn|r1 r2 r3 op m n r Ho Hn|fin r1 r2 r3 op n x Ho Hn Hc L]; try discriminate.
    + left. destruct (complete_lead true false false false 1 false 0) as [x G]; [lia|apply data_control_ok; lia|reflexivity|].
      eexists. cbn [app]. exact G.
    + apply bytes_ok_cons in Hl as [H0 _]. destruct (octet0 b H0) as (fin & r1 & r2 & r3 & op & Ho & ->).
      destruct (N.ltb_spec op 8) as [G|G]; [|destruct fin].
      * left. destruct (complete_lead fin r1 r2 r3 op false 0 Ho) as [x F]; [apply data_control_ok; exact G|reflexivity|].
        exists (bit false 128 + spec_len7 0 :: spec_ext 0 ++ x). unfold lead in F. rewrite <- app_assoc in F. exact F.
      * left. destruct (complete_lead true r1 r2 r3 op false 0 Ho) as [x F]; [intros _; split; [lia|reflexivity]|reflexivity|].
        exists (bit false 128 + spec_len7 0 :: spec_ext 0 ++ x). unfold lead in F. rewrite <- app_assoc in F. exact F.
      * right. apply nf_part. lia.
    + apply bytes_ok_cons in Hl as [H0 Hl]. apply bytes_ok_cons in Hl as [_ Hl].
      destruct (octet0 b0 H0) as (fin & r1 & r2 & r3 & op & Ho & ->).
      destruct (N.ltb_spec op 8) as [G|G]; [|right; apply (nf_control2 fin r1 r2 r3 op m x); [lia|exact L]].
      left. set (a := x ++ repeat 255 (2 - length x)).
      assert (La : length a = 2%nat) by (unfold a; rewrite app_length, repeat_length; lia).
      assert (Ha : bytes_ok a) by (apply fill_ok; exact Hl).
      destruct (N.ltb_spec (be_dec a) 126) as [B|B].
      { exfalso. pose proof (two_octets a Ha La ltac:(lia)) as E. remember (be_dec a) as v.
        unfold a in E. destruct x as [|x0 [|x1 x]]; cbn [length repeat app Nat.sub] in E; [discriminate| |cbn [length] in L; lia].
        injection E as _ E. lia. }
      destruct (be2_ext a Ha La B) as (B' & Ea & E7).
      destruct (complete_lead fin r1 r2 r3 op m (be_dec a) Ho) as [y F]; [apply data_control_ok; exact G|change (2 ^ 64) with 18446744073709551616; lia|].
      unfold lead in F. rewrite E7, <- Ea in F. exists (repeat 255 (2 - length x) ++ y).
      unfold a in F. rewrite <- !app_assoc in F. exact F.
    + apply bytes_ok_cons in Hl as [H0 Hl]. apply bytes_ok_cons in Hl as [_ Hl].
      destruct (octet0 b0 H0) as (fin & r1 & r2 & r3 & op & Ho & Eb). rewrite Eb.
      destruct (N.ltb_spec op 8) as [G|G]; [|right; apply (nf_control8 fin r1 r2 r3 op m x); [lia|exact L]].
      rewrite <- Eb. set (a := x ++ repeat 255 (8 - length x)).
      assert (La : length a = 8%nat) by (unfold a; rewrite app_length, repeat_length; lia).
      assert (Ha : bytes_ok a) by (apply fill_ok; exact Hl).
      destruct (N.ltb_spec (be_dec a) 65536) as [B|B].
      { right. pose proof (eight_octets a Ha La ltac:(lia)) as E. remember (be_dec a / 256) as u. remember (be_dec a mod 256) as v.
        unfold a in E. clear - E L.
        destruct x as [|x0 [|x1 [|x2 [|x3 [|x4 [|x5 [|x6 [|x7 x]]]]]]]]; cbn [length repeat app Nat.sub] in E; try discriminate.
        - injection E as -> -> -> -> -> -> _ _. apply (nf_zeros b0 m []). cbn. lia.
        - injection E as -> -> -> -> -> -> -> _. apply (nf_zeros b0 m [u]). cbn. lia.
        - cbn [length] in L. lia. }
      left. destruct (be8_ext a Ha La B) as (B' & Ea & E7).
      destruct (complete_lead fin r1 r2 r3 op m (be_dec a) Ho) as [y F]; [apply data_control_ok; exact G|exact B'|].
      unfold lead in F. rewrite E7, <- Ea in F. exists (repeat 255 (8 - length x) ++ y).
      unfold a in F. rewrite <- !app_assoc in F. rewrite Eb. exact F.
    + left. apply bytes_ok_app in Hl as [_ Hl].
      assert (K : exists a b c d y, x ++ y = [a; b; c; d] /\ key_ok (Some (a, b, c, d))).
      { destruct x as [|a [|b [|c [|d x]]]]; cbn [length] in L; [| | | |lia].
        - exists 0, 0, 0, 0, [0; 0; 0; 0]. split; [reflexivity|]. cbn. lia.
        - apply bytes_ok_cons in Hl as [? Hl]. exists a, 0, 0, 0, [0; 0; 0]. split; [reflexivity|]. cbn. unfold byte_ok in *. lia.
        - apply bytes_ok_cons in Hl as [? Hl]. apply bytes_ok_cons in Hl as [? Hl].
          exists a, b, 0, 0, [0; 0]. split; [reflexivity|]. cbn. unfold byte_ok in *. lia.
        - apply bytes_ok_cons in Hl as [? Hl]. apply bytes_ok_cons in Hl as [? Hl]. apply bytes_ok_cons in Hl as [? Hl].
          exists a, b, c, 0, [0]. split; [reflexivity|]. cbn. unfold byte_ok in *. lia. }
      destruct K as (a & b & c & d & y & E & Hk). exists (y ++ repeat 0 (N.to_nat n)).
      rewrite <- app_assoc, (app_assoc x), E.
      pose proof (lead_key fin r1 r2 r3 op (Some (a, b, c, d)) n (repeat 0 (N.to_nat n))) as K. cbv iota in K. rewrite <- K.
      apply complete_frame; auto. apply zeros_len.
  - left. exists (repeat 0 (N.to_nat (n - blen x))). rewrite <- app_assoc. apply complete_frame; auto.
    unfold blen in *. rewrite app_length, repeat_length. lia.
Qed.

Lemma octet0_inj fin r1 r2 r3 op fin' r1' r2' r3' op' : op < 16 -> op' < 16 ->
  bit fin 128 + bit r1 64 + bit r2 32 + bit r3 16 + op = bit fin' 128 + bit r1' 64 + bit r2' 32 + bit r3' 16 + op' ->
  fin = fin' /\ op = op'.
Proof. intros H H' E. destruct fin, r1, r2, r3, fin', r1', r2', r3'; cbn [bit] in E; split; try reflexivity; lia. Qed.

Lemma octet1_inj m t m' t' : t < 128 -> t' < 128 -> bit m 128 + t = bit m' 128 + t' -> t = t'.
Proof. intros H H' E. destruct m, m'; cbn [bit] in E; lia. Qed.

Lemma never_read l x : bytes_ok (l ++ x) -> never_frame l -> exists e, read_header (l ++ x) = Err e.
Proof.
  intros Hl H. destruct (read_header_shape (l ++ x) Hl) as [(e & _ & R & _)|(fin & r1 & r2 & r3 & op & m & n & r & Ho & Hn & E)]; [eauto|].
  assert (RL := read_lead fin r1 r2 r3 op m n r Ho Hn). rewrite <- E in RL.
  unfold lead in E. rewrite <- app_assoc in E. cbn [app] in E.
  destruct H as [q1 q2 q3 o G|f q1 q2 q3 o k y G L|f q1 q2 q3 o k y G L|b0 k y L].
  - cbn [app] in E. injection E as E0 _. apply (octet0_inj false q1 q2 q3 o) in E0 as [<- <-]; [|lia|exact Ho].
    rewrite RL. destruct ((8 <=? o) && (126 <=? n)); [eauto|]. replace ((8 <=? o) && negb false) with true by (cbn [negb]; lia). eauto.
  - rewrite <- app_assoc in E. cbn [app] in E. injection E as E0 E1 _. apply octet0_inj in E0 as [_ <-]; [|lia|exact Ho].
    apply octet1_inj in E1; [|lia|apply spec_len7_lt].
    assert (126 <= n) by (unfold spec_len7 in E1; destruct (N.ltb_spec n 126); lia).
    rewrite RL. replace ((8 <=? o) && (126 <=? n)) with true by lia. eauto.
  - rewrite <- app_assoc in E. cbn [app] in E. injection E as E0 E1 _. apply octet0_inj in E0 as [_ <-]; [|lia|exact Ho].
    apply octet1_inj in E1; [|lia|apply spec_len7_lt].
    assert (126 <= n) by (unfold spec_len7 in E1; destruct (N.ltb_spec n 126); lia).
    rewrite RL. replace ((8 <=? o) && (126 <=? n)) with true by lia. eauto.
  - exfalso. rewrite <- app_assoc in E. cbn [app] in E. injection E as E0 E1 E2.
    apply octet1_inj in E1; [|lia|apply spec_len7_lt].
    unfold spec_len7, spec_ext in *. destruct (N.ltb_spec n 126); [lia|]. destruct (N.ltb_spec n 65536); [lia|].
    cbn [app] in E2. injection E2 as E2 E3 E4 E5 E6 E7 _.
    clear - E2 E3 E4 E5 E6 E7 H0 Hn. pose proof (be_enc_8 n Hn) as E. rewrite <- E2, <- E3, <- E4, <- E5, <- E6, <- E7 in E.
    assert (D : be_dec (be_enc 8 n) = n) by (apply be_dec_enc_small; exact Hn).
    rewrite E in D. unfold be_dec in D. cbn [be_dec_acc] in D.
    assert ((n / 2 ^ 8) mod 256 < 256) by (apply N.mod_lt; discriminate). assert (n mod 256 < 256) by (apply N.mod_lt; discriminate).
    lia.
Qed.

Lemma never_never limit l x : bytes_ok (l ++ x) -> never_frame l -> forall y, read_frame limit (l ++ x) <> Ok y.
Proof. intros Hl H y. rewrite read_frame_eq. destruct (never_read l x Hl H) as [e ->]. discriminate. Qed.

Lemma head_bad_final l e x : head_bad l e -> e <> more_data -> head_bad (l ++ x) e.
Proof.
  intros H N. destruct H as [|b|b0 m y L|b0 m y L|b0 m n r Hn|b0 m n r Hn|fin r1 r2 r3 op m n r Ho Hn|r1 r2 r3 op m n r Ho Hn|fin r1 r2 r3 op n y Ho Hn Hc L];
    try (exfalso; apply N; reflexivity).
  - apply (hb_long2 b0 m n (r ++ x)). exact Hn.
  - apply (hb_long8 b0 m n (r ++ x)). exact Hn.
  - rewrite <- app_assoc. apply hb_control_length; assumption.
  - rewrite <- app_assoc. apply hb_control_part; assumption.
Qed.

Lemma frame_bad_final limit l e x : frame_bad limit l e -> e <> more_data -> frame_bad limit (l ++ x) e.
Proof.
  intros H N. destruct H as [l e H|lim fin r1 r2 r3 op key n r E Hn Ho Hc Hk|fin r1 r2 r3 op key n y HL Hn Ho Hc Hk L].
  - apply fb_head. apply head_bad_final; assumption.
  - rewrite <- app_assoc. apply (fb_limit limit lim); assumption.
  - exfalso. apply N. reflexivity.
Qed.

Lemma read_frame_total limit l : (exists d r, read_frame limit l = Ok (d, r)) \/ (exists e, read_frame limit l = Err e).
Proof. destruct limit as [lim|]; [apply read_limit_total|apply read_dataframe_total]. Qed.

Lemma frame_good_iff limit l : bytes_ok l -> (exists d r, read_frame limit l = Ok (d, r)) <-> frame_good limit l.
Proof.
  intros Hl. split.
  - intros (d & r & H). assert (R : read_dataframe l = Ok (d, r) /\ forall lim, limit = Some lim -> blen (d_data d) <= lim).
    { destruct limit as [lim|]; cbn [read_frame] in H.
      - apply read_limit_ok in H as [H G]. split; [exact H|]. intros lim' E. injection E as <-. exact G.
      - split; [exact H|]. discriminate. }
    destruct R as [R G]. destruct (read_dataframe_inv l d r Hl R) as (key & E & Hc & Hn & Hk).
    exists (d_fin d), (fst (fst (d_rsv d))), (snd (fst (d_rsv d))), (snd (d_rsv d)), (opcode_u8 (d_op d)), key, (d_data d), r.
    split; [exact E|]. split; [apply opcode_u8_lt|]. auto.
  - intros (fin & r1 & r2 & r3 & op & key & data & r & -> & Ho & Hk & Hn & HL & Hc).
    destruct (key_ok_read limit fin r1 r2 r3 op key data r Ho Hk Hn HL Hc) as (d & R & _). eauto.
Qed.

Lemma frame_cases limit l : bytes_ok l -> frame_good limit l \/ exists e, frame_bad limit l e.
Proof.
  intros Hl. destruct (read_frame_total limit l) as [R|[e R]].
  - left. apply frame_good_iff; assumption.
  - right. exists e. apply frame_bad_iff; assumption.
Qed.

Lemma frame_exclusive limit l e : bytes_ok l -> frame_good limit l -> frame_bad limit l e -> False.
Proof.
  intros Hl G B. apply frame_good_iff in G as (d & r & R); [|exact Hl]. apply frame_bad_iff in B; [|exact Hl]. rewrite R in B. discriminate.
Qed.

Lemma frame_one_error limit l e e' : bytes_ok l -> frame_bad limit l e -> frame_bad limit l e' -> e = e'.
Proof. intros Hl A B. apply (frame_bad_iff limit l _ Hl) in A, B. congruence. Qed.

(** ** Messages *)
Lemma rsv_dec d : {no_rsv d} + {~ no_rsv d}.
Proof. unfold no_rsv. destruct (df_rsv d) as [[[|] [|]] [|]]; (left; reflexivity) || (right; discriminate). Qed.

Lemma collect_step first d rest data : (first = true \/ df_opcode d = 0) -> no_rsv d ->
  collect_frames first (d :: rest) data = collect_frames false rest (data ++ df_take d).
Proof.
  intros F R. cbn [collect_frames]. rewrite R.
  replace (negb first && negb (df_opcode d =? opcode_u8 Continuation)) with false; [reflexivity|].
  destruct F as [-> | ->]; [reflexivity|]. rewrite andb_false_r. reflexivity.
Qed.

Definition row (first : bool) (a : list dfable) : Prop :=
  Forall no_rsv a /\ Forall (fun d => df_opcode d = 0) (if first then tl a else a).

Lemma collect_row a : forall first r data, row first a ->
  collect_frames first (a ++ r) data = collect_frames (match a with [] => first | _ => false end) r (data ++ payload a).
Proof.
  induction a as [|d a IH]; intros first r data [Hr Ho].
  - unfold payload. cbn [app map concat]. rewrite app_nil_r. reflexivity.
  - inversion Hr as [|? ? Hd Hr']; subst.
    assert (F : first = true \/ df_opcode d = 0) by (destruct first; [auto|inversion Ho; auto]).
    cbn [app]. rewrite collect_step by assumption.
    assert (Row : row false a) by (split; [exact Hr'|]; destruct first; [exact Ho|inversion Ho; assumption]).
    rewrite IH by exact Row. unfold payload. cbn [map concat]. rewrite app_assoc. destruct a; reflexivity.
Qed.

Lemma collect_err frames : forall first data e, collect_frames first frames data = Err e ->
  exists a d r, frames = a ++ d :: r /\ row first a /\
    (((first = false \/ a <> []) /\ df_opcode d <> 0 /\ e = EWs (ProtocolError "Unexpected non-continuation data frame")) \/
     (((first = true /\ a = []) \/ df_opcode d = 0) /\ ~ no_rsv d /\ e = EWs (ProtocolError "Unsupported reserved bits received"))).
Proof.
  induction frames as [|d frames IH]; intros first data e H; [discriminate|].
  destruct (negb first && negb (df_opcode d =? opcode_u8 Continuation)) eqn:C.
  { cbn [collect_frames] in H. rewrite C in H. injection H as <-. exists [], d, frames. split; [reflexivity|].
    split; [split; [constructor|destruct first; constructor]|]. left. destruct first; [discriminate|]. split; [auto|].
    split; [cbn [negb andb opcode_u8] in C; lia|reflexivity]. }
  assert (F : first = true \/ df_opcode d = 0).
  { destruct first; [auto|]. right. cbn [negb andb opcode_u8] in C. lia. }
  destruct (rsv_dec d) as [R|R].
  - rewrite collect_step in H by assumption. destruct (IH _ _ _ H) as (a & d' & r & -> & [Hr Ho] & K).
    exists (d :: a), d', r. split; [reflexivity|]. split.
    + split; [constructor; assumption|]. destruct first; [exact Ho|]. constructor; [destruct F as [F|F]; [discriminate|exact F]|exact Ho].
    + destruct K as [(_ & K & ->)|([[K _]|K] & Kr & ->)]; [|discriminate|].
      * left. split; [right; discriminate|]. auto.
      * right. auto.
  - cbn [collect_frames] in H. rewrite C in H. exists [], d, frames. split; [reflexivity|].
    split; [split; [constructor|destruct first; constructor]|]. right. split; [destruct F; auto|]. split; [exact R|].
    unfold no_rsv in R. destruct (df_rsv d) as [[[|] [|]] [|]]; try (injection H as <-; reflexivity). congruence.
Qed.

Lemma collect_returns frames : forall first data, collect_frames first frames data <> Panic.
Proof.
  induction frames as [|d frames IH]; intros first data; [discriminate|]. cbn [collect_frames].
  destruct (negb first && _); [discriminate|]. destruct (df_rsv d) as [[[|] [|]] [|]]; try discriminate. apply IH.
Qed.

Lemma collect_returns2 frames : forall first data, collect_frames first frames data <> Diverge.
Proof.
  induction frames as [|d frames IH]; intros first data; [discriminate|]. cbn [collect_frames].
  destruct (negb first && _); [discriminate|]. destruct (df_rsv d) as [[[|] [|]] [|]]; try discriminate. apply IH.
Qed.

Lemma collect_ends first d r data : df_opcode d <> 0 -> first = false ->
  collect_frames first (d :: r) data = Err (EWs (ProtocolError "Unexpected non-continuation data frame")).
Proof. intros H ->. cbn [collect_frames opcode_u8]. replace (df_opcode d =? 0) with false by lia. reflexivity. Qed.

Lemma collect_rsv first d r data : first = true \/ df_opcode d = 0 -> ~ no_rsv d ->
  collect_frames first (d :: r) data = Err (EWs (ProtocolError "Unsupported reserved bits received")).
Proof.
  intros F R. cbn [collect_frames opcode_u8].
  replace (negb first && negb (df_opcode d =? 0)) with false.
  2: { destruct F as [-> | ->]; [reflexivity|]. rewrite andb_false_r. reflexivity. }
  unfold no_rsv in R. destruct (df_rsv d) as [[[|] [|]] [|]]; try reflexivity. congruence.
Qed.

Lemma be_dec_2 a b : be_dec [a; b] = a * 256 + b.
Proof. unfold be_dec. cbn [be_dec_acc]. lia. Qed.

Lemma opcode_other op : ~ In op [1; 2; 8; 9; 10] -> forall o, opcode_new op = Some o -> o <> OText /\ o <> OBinary /\ o <> OClose /\ o <> OPing /\ o <> OPong.
Proof.
  intros H o E. apply opcode_new_inv in E. cbn [In] in H. repeat split; intros ->; cbn [opcode_u8] in E; subst; tauto.
Qed.

Lemma build_other op s : ~ In op [1; 2; 8; 9; 10] -> build_message (opcode_new op) s = Err (EWs (ProtocolError "Unsupported opcode received")).
Proof.
  intros H. pose proof (opcode_other op H) as K. destruct (opcode_new op) as [o|]; [|reflexivity].
  destruct (K o eq_refl) as (A & B & C & D & E). destruct o; try reflexivity; congruence.
Qed.

Lemma body_cases op s :
  (exists m, body_good op s m /\ build_message (opcode_new op) s = Ok m) \/ (exists e, body_bad op s e /\ build_message (opcode_new op) s = Err e).
Proof.
  assert (D : op = 1 \/ op = 2 \/ op = 8 \/ op = 9 \/ op = 10 \/ ~ In op [1; 2; 8; 9; 10]) by (cbn [In]; lia).
  destruct D as [->|[->|[->|[->|[->|D]]]]].
  - cbn [opcode_new build_message]. destruct (utf8_valid s) eqn:U.
    + left. eexists. split; [|reflexivity]. constructor. apply utf8_valid_iff. exact U.
    + right. eexists. split; [|reflexivity]. constructor. rewrite <- utf8_valid_iff, U. discriminate.
  - left. eexists. split; [constructor|reflexivity].
  - cbn [opcode_new build_message]. destruct s as [|a [|b s]].
    + left. eexists. split; [constructor|reflexivity].
    + right. eexists. split; [constructor|reflexivity].
    + change (try_get 2 (a :: b :: s)) with (Ok (be_dec [a; b], s)). cbn [bind]. rewrite be_dec_2. destruct (utf8_valid s) eqn:U.
      * left. eexists. split; [|reflexivity]. constructor. apply utf8_valid_iff. exact U.
      * right. eexists. split; [|reflexivity]. constructor. rewrite <- utf8_valid_iff, U. discriminate.
  - left. eexists. split; [constructor|reflexivity].
  - left. eexists. split; [constructor|reflexivity].
  - right. eexists. split; [apply bb_other; exact D|apply build_other; exact D].
Qed.

Lemma body_good_build op s m : body_good op s m -> build_message (opcode_new op) s = Ok m.
Proof.
  intros H. destruct H as [s U|s| |a b s U|s|s]; cbn [opcode_new build_message]; try reflexivity.
  - apply utf8_valid_iff in U. rewrite U. reflexivity.
  - change (try_get 2 (a :: b :: s)) with (Ok (be_dec [a; b], s)). cbn [bind]. apply utf8_valid_iff in U. rewrite U, be_dec_2. reflexivity.
Qed.

Lemma not_utf8 s : ~ is_utf8 s -> utf8_valid s = false.
Proof. intros U. destruct (utf8_valid s) eqn:E; [|reflexivity]. exfalso. apply U. apply utf8_valid_iff. exact E. Qed.

Lemma body_bad_build op s e : body_bad op s e -> build_message (opcode_new op) s = Err e.
Proof.
  intros H. destruct H as [s U|b|a b s U|op s D].
  - cbn [opcode_new build_message]. rewrite (not_utf8 s U). reflexivity.
  - reflexivity.
  - cbn [opcode_new build_message]. change (try_get 2 (a :: b :: s)) with (Ok (be_dec [a; b], s)). cbn [bind]. rewrite (not_utf8 s U). reflexivity.
  - apply build_other. exact D.
Qed.

Lemma message_row d a : in_row (d :: a) -> msg_from_dataframes (d :: a) = build_message (opcode_new (df_opcode d)) (payload (d :: a)).
Proof.
  intros R. unfold msg_from_dataframes. rewrite <- (app_nil_r (d :: a)) at 1. rewrite collect_row by exact R. cbn [collect_frames bind app]. reflexivity.
Qed.

Lemma message_good_iff frames m : msg_from_dataframes frames = Ok m <-> message_good frames m.
Proof.
  split.
  - intros H. destruct (msg_from_frames_inv frames m H) as (d & rest & -> & Hr & Ho & B).
    constructor; [split; [exact Hr|exact Ho]|]. destruct (body_cases (df_opcode d) (payload (d :: rest))) as [(m' & G & E)|(e & _ & E)].
    + unfold payload in E. rewrite B in E. injection E as <-. exact G.
    + unfold payload in E. rewrite B in E. discriminate.
  - intros H. destruct H as [d a m R B]. rewrite message_row by exact R. apply body_good_build. exact B.
Qed.

Lemma message_bad_iff frames e : msg_from_dataframes frames = Err e <-> message_bad frames e.
Proof.
  split.
  - destruct frames as [|d0 rest]; [intros H; injection H as <-; constructor|]. intros H. unfold msg_from_dataframes in H.
    apply bind_err in H as [H|(data & C & H)].
    + destruct (collect_err _ _ _ _ H) as (a & d & r & -> & R & K).
      destruct K as [([K|K] & Ko & ->)|([[_ K]|K] & Kr & ->)]; [discriminate| | |].
      * apply mb_start; assumption.
      * apply mb_reserved; auto.
      * apply mb_reserved; auto.
    + apply collect_frames_inv in C as (Hr & Ho & ->). cbn [app] in H. apply mb_body; [split; assumption|].
      destruct (body_cases (df_opcode d0) (payload (d0 :: rest))) as [(m' & _ & E)|(e' & B & E)]; unfold payload in E; cbn [map concat app] in H, E; rewrite H in E.
      * discriminate.
      * injection E as <-. exact B.
  - intros H. destruct H as [|a d r N R O|a d r R F Z|d a e R B].
    + reflexivity.
    + destruct a as [|d0 a]; [congruence|]. cbn [app]. unfold msg_from_dataframes. change (d0 :: a ++ d :: r) with ((d0 :: a) ++ d :: r).
      rewrite collect_row by exact R. rewrite collect_ends by (exact O || reflexivity). reflexivity.
    + destruct a as [|d0 a].
      * cbn [app]. unfold msg_from_dataframes. rewrite collect_rsv by auto. reflexivity.
      * destruct F as [F|F]; [discriminate|]. cbn [app]. unfold msg_from_dataframes. change (d0 :: a ++ d :: r) with ((d0 :: a) ++ d :: r).
        rewrite collect_row by exact R. rewrite collect_rsv by auto. reflexivity.
    + rewrite message_row by exact R. apply body_bad_build. exact B.
Qed.

Lemma owned_bad_iff frames e : owned_from_dataframes frames = Err e <-> message_bad frames e.
Proof.
  rewrite <- message_bad_iff. unfold owned_from_dataframes. destruct (msg_from_dataframes frames); cbn [bind]; split; intros H; try discriminate; injection H as <-; reflexivity.
Qed.

Lemma message_cases frames : (exists m, message_good frames m) \/ (exists e, message_bad frames e).
Proof.
  destruct (msg_from_dataframes frames) as [m|e| |] eqn:E.
  - left. exists m. apply message_good_iff. exact E.
  - right. exists e. apply message_bad_iff. exact E.
  - exfalso. destruct frames as [|d rest]; [discriminate|]. unfold msg_from_dataframes in E.
    destruct (collect_frames true (d :: rest) []) as [x|e| |] eqn:C; cbn [bind] in E; try discriminate.
    + destruct (body_cases (df_opcode d) x) as [(m & _ & B)|(e & _ & B)]; rewrite B in E; discriminate.
    + exact (collect_returns _ _ _ C).
  - exfalso. destruct frames as [|d rest]; [discriminate|]. unfold msg_from_dataframes in E.
    destruct (collect_frames true (d :: rest) []) as [x|e| |] eqn:C; cbn [bind] in E; try discriminate.
    + destruct (body_cases (df_opcode d) x) as [(m & _ & B)|(e & _ & B)]; rewrite B in E; discriminate.
    + exact (collect_returns2 _ _ _ C).
Qed.
