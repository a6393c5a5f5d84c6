(** Lemmas about the HPACK encoder and decoder. *)
From Coq Require Import Ascii String NArith ZArith Lia Bool List ZifyBool ZifyNat ZifyN.
From Verif Require Import Base S_Utf8 P_Base M_Std M_Helper M_Header M_Huffman M_Hpack.
From Verif Require Import S_Http1 S_Map P_Map S_Huffman S_Hpack S_HpackApi P_Huffman P_Hpack P_HpackTable.
Import ListNotations.
Local Open Scope N_scope.
Ltac Zify.zify_post_hook ::= Z.div_mod_to_equations.

(** ** Representations *)
Lemma representation_spec b : b < 256 ->
  representation_of b =
  if 128 <=? b then RIndexed else if 64 <=? b then RIncremental else if 32 <=? b then RSizeUpdate
  else if 16 <=? b then RNever else RWithout.
Proof.
  intros H.
  set (eqb := fun a b => match a, b with RIndexed, RIndexed | RIncremental, RIncremental
    | RSizeUpdate, RSizeUpdate | RNever, RNever | RWithout, RWithout => true | _, _ => false end).
  assert (A : eqb (representation_of b) (if 128 <=? b then RIndexed else if 64 <=? b then RIncremental
    else if 32 <=? b then RSizeUpdate else if 16 <=? b then RNever else RWithout) = true).
  { revert b H. apply byte_sweep. vm_compute. reflexivity. }
  destruct (representation_of b), (if 128 <=? b then RIndexed else _); try discriminate A; reflexivity.
Qed.

(** The library's own tables, as a lookup function. *)
Definition code_lookup (dyn : list hfield) (i : N) : option hfield := get_from_index (mkIdx dyn 0 0) i.
Lemma code_lookup_idx t i : code_lookup (hi_table t) i = get_from_index t i.
Proof. reflexivity. Qed.

Lemma slice_from_app a b : slice_from (a ++ b) (blen a) = Ok b.
Proof.
  unfold slice_from. rewrite blen_app. destruct (N.ltb_spec (blen a + blen b) (blen a)) as [L|_]; [lia|].
  rewrite skipn_blen. reflexivity.
Qed.

Lemma decode_literal_indexed t p fl i l e lv v rest (index : bool) :
  p = (if index then 6 else 4) -> flag_bits p fl ->
  int_repr p fl l i -> (length l <= 5)%nat -> get_from_index t i = Some e -> str_repr lv v ->
  decode_literal t (l ++ lv ++ rest) index = Ok ((fst e, v), blen (l ++ lv)).
Proof.
  intros Ep Hf HI HL HG HS. unfold decode_literal. rewrite <- Ep.
  assert (Pp : 1 <= p <= 8) by (destruct index; subst p; lia).
  rewrite (decode_integer_repr p fl l i (lv ++ rest) Pp Hf HI HL). cbn [bind].
  destruct (N.eqb_spec i 0) as [->|NZ]; [discriminate HG|].
  unfold get_from_table. rewrite HG. cbn [bind].
  rewrite slice_from_app. cbn [bind].
  rewrite (decode_string_repr lv v rest HS). cbn [bind]. rewrite blen_app. reflexivity.
Qed.

Lemma decode_literal_new t p fl n ln v lv rest (index : bool) :
  p = (if index then 6 else 4) -> flag_bits p fl ->
  is_utf8 n -> str_repr ln n -> str_repr lv v ->
  decode_literal t ((fl :: ln ++ lv) ++ rest) index = Ok ((n, v), blen (fl :: ln ++ lv)).
Proof.
  intros Ep Hf HU HN HV. unfold decode_literal. rewrite <- Ep.
  assert (Pp : 1 <= p <= 8) by (destruct index; subst p; lia).
  replace ((fl :: ln ++ lv) ++ rest) with ([fl] ++ ln ++ lv ++ rest)
    by (cbn [app]; rewrite <- app_assoc; reflexivity).
  assert (HI : int_repr p fl [fl] 0).
  { replace [fl] with [fl + 0] by (f_equal; lia). constructor. pose proof (pow2_range p Pp). lia. }
  rewrite (decode_integer_repr p fl [fl] 0 _ Pp Hf HI) by (cbn [length]; lia). cbn [bind].
  rewrite N.eqb_refl. rewrite slice_from_app. cbn [bind].
  rewrite (decode_string_repr ln n _ HN). cbn [bind].
  rewrite app_assoc. replace (blen [fl] + blen ln) with (blen ([fl] ++ ln)) by apply blen_app.
  rewrite slice_from_app. cbn [bind].
  rewrite (decode_string_repr lv v _ HV). cbn [bind].
  unfold name_from_bytes. rewrite utf8_lossy_valid by (apply utf8_valid_iff, HU).
  rewrite !blen_app, !blen_cons, !blen_app, blen_nil. f_equal. f_equal. lia.
Qed.

Lemma hd_app_cons (x : N) l r : hd 0 ((x :: l) ++ r) = x.
Proof. reflexivity. Qed.

(** The decoder reads every representation of the format (with one-octet indices). *)
Lemma decode_one_repr nok t l f d' rest : idx_inv t ->
  field_repr code_lookup (fun i => i < 127) nok (hi_max t) (hi_table t) l f d' ->
  total_size d' <= hi_max t /\ 1 <= blen l /\
  decode_one t (l ++ rest) = Ok (idx_of (hi_max t) d', Some f, blen l).
Proof.
  intros I H. destruct (inv_idx_of t I) as [Et Ts].
  destruct H as [i l f Hi HI HG|i l e v lv Hi HI HL HG HS|n ln v lv HU HN HV|fl i l e v lv Hfl Hi HI HL HG HS|fl n ln v lv Hfl HU HN HV].
  - split; [exact Ts|]. rewrite code_lookup_idx in HG. rewrite <- Et.
    revert Hi. destruct HI as [w Hw|l w Hw]; intros Hi.
    + change (2 ^ 7 - 1) with 127 in Hw. split; [rewrite blen_cons; lia|].
      unfold decode_one. cbn [app hd]. rewrite representation_spec by lia.
      destruct (N.leb_spec 128 (128 + w)) as [_|A]; [|lia].
      unfold decode_indexed. destruct (byte_parts (128 + w) ltac:(lia)) as [E _]. rewrite E.
      replace ((128 + w) mod 128) with w by lia.
      unfold get_from_table. rewrite HG. reflexivity.
    + change (2 ^ 7 - 1) with 127 in Hi. lia.
  - split; [apply newest_size|]. rewrite code_lookup_idx in HG.
    destruct (int_repr_head _ _ _ _ HI) as (x & l' & E & X1 & X2). change (2 ^ 6 - 1) with 63 in X2.
    split; [rewrite E, blen_app, blen_cons; lia|].
    unfold decode_one. rewrite <- app_assoc.
    rewrite (decode_literal_indexed t 6 64 i l e lv v rest true eq_refl flag_64 HI HL HG HS).
    rewrite E. cbn [app hd]. rewrite representation_spec by lia.
    destruct (N.leb_spec 128 x) as [A|_]; [lia|]. destruct (N.leb_spec 64 x) as [_|A]; [|lia].
    cbn [bind]. rewrite add_header_spec by exact I. reflexivity.
  - split; [apply newest_size|]. split; [rewrite blen_cons; lia|].
    unfold decode_one.
    rewrite (decode_literal_new t 6 64 n ln v lv rest true eq_refl flag_64 HU HN HV).
    rewrite hd_app_cons. change (representation_of 64) with RIncremental.
    cbn [bind]. rewrite add_header_spec by exact I. reflexivity.
  - split; [exact Ts|]. rewrite code_lookup_idx in HG. rewrite <- Et.
    destruct (int_repr_head _ _ _ _ HI) as (x & l' & E & X1 & X2). change (2 ^ 4 - 1) with 15 in X2.
    split; [rewrite E, blen_app, blen_cons; lia|].
    unfold decode_one. rewrite <- app_assoc.
    assert (FB : flag_bits 4 fl) by (destruct Hfl as [->| ->]; [apply flag_0|apply flag_16]).
    rewrite (decode_literal_indexed t 4 fl i l e lv v rest false eq_refl FB HI HL HG HS).
    rewrite E. cbn [app hd]. rewrite representation_spec by lia.
    destruct (N.leb_spec 128 x) as [A|_]; [lia|]. destruct (N.leb_spec 64 x) as [A|_]; [lia|].
    destruct (N.leb_spec 32 x) as [A|_]; [lia|]. destruct (N.leb_spec 16 x) as [_|_]; reflexivity.
  - split; [exact Ts|]. split; [rewrite blen_cons; lia|]. rewrite <- Et.
    unfold decode_one.
    assert (FB : flag_bits 4 fl) by (destruct Hfl as [->| ->]; [apply flag_0|apply flag_16]).
    rewrite (decode_literal_new t 4 fl n ln v lv rest false eq_refl FB HU HN HV).
    rewrite hd_app_cons. destruct Hfl as [->| ->]; reflexivity.
Qed.

(** ** The decoding loop *)
Lemma add_header_inv t f t' : idx_inv t -> add_header t f = Ok t' -> idx_inv t' /\ hi_max t' = hi_max t.
Proof. intros I. rewrite add_header_spec by exact I. intros [= <-]. split; [apply rfc_add_inv|reflexivity]. Qed.

Lemma decode_literal_total t buf index :
  (exists f k, decode_literal t buf index = Ok (f, k) /\ 1 <= k /\ k <= blen buf) \/
  exists e, decode_literal t buf index = Err e /\ hpack_error e.
Proof.
  unfold decode_literal.
  destruct (decode_integer_total buf (if index then 6 else 4)) as [[[i n] E]|[e E]]; rewrite E; cbn [bind].
  2: { right. eexists. split; [reflexivity|]. left. eexists. reflexivity. }
  pose proof (decode_integer_bound _ _ _ _ E) as [B1 B2].
  assert (S : forall m, m <= blen buf -> slice_from buf m = Ok (skipn (N.to_nat m) buf) /\
    blen (skipn (N.to_nat m) buf) = blen buf - m).
  { intros m Hm. unfold slice_from. destruct (N.ltb_spec (blen buf) m) as [L|L]; [lia|].
    split; [reflexivity|]. unfold blen. rewrite skipn_length. lia. }
  assert (T : (exists nm c, (if i =? 0 then rest <- slice_from buf n ;; ' (nm, k) <- decode_string rest ;;
       Ok (name_from_bytes nm, n + k) else f <- get_from_table t i ;; Ok (fst f, n)) = Ok (nm, c) /\
       1 <= c /\ c <= blen buf) \/
     exists e, (if i =? 0 then rest <- slice_from buf n ;; ' (nm, k) <- decode_string rest ;;
       Ok (name_from_bytes nm, n + k) else f <- get_from_table t i ;; Ok (fst f, n)) = Err e /\ hpack_error e).
  { destruct (i =? 0).
    - destruct (S n B2) as [E1 E2]. rewrite E1. cbn [bind].
      destruct (decode_string_total (skipn (N.to_nat n) buf)) as [(s & k & D & D1 & D2)|(e & D & D1)];
        rewrite D; cbn [bind]; [left|right; eauto]. eexists. eexists. split; [reflexivity|]. lia.
    - unfold get_from_table. destruct (get_from_index t i) as [f|]; cbn [bind].
      + left. eexists. eexists. split; [reflexivity|]. lia.
      + right. eexists. split; [reflexivity|]. left. eexists. reflexivity. }
  destruct T as [(nm & c & -> & C1 & C2)|(e & -> & He)]; cbn [bind]; [|right; eauto].
  destruct (S c C2) as [E1 E2]. rewrite E1. cbn [bind].
  destruct (decode_string_total (skipn (N.to_nat c) buf)) as [(s & k & D & D1 & D2)|(e & D & D1)];
    rewrite D; cbn [bind]; [left|right; eauto]. eexists. eexists. split; [reflexivity|]. lia.
Qed.

Lemma slice_stable buf x n r : slice_from buf n = Ok r -> slice_from (buf ++ x) n = Ok (r ++ x).
Proof.
  unfold slice_from. destruct (N.ltb_spec (blen buf) n) as [L|L]; [discriminate|]. intros [= <-].
  rewrite blen_app. destruct (N.ltb_spec (blen buf + blen x) n) as [L2|L2]; [lia|].
  rewrite skipn_app. replace (N.to_nat n - length buf)%nat with 0%nat by (unfold blen in L; lia). reflexivity.
Qed.

Lemma decode_literal_stable t buf x index r :
  decode_literal t buf index = Ok r -> decode_literal t (buf ++ x) index = Ok r.
Proof.
  unfold decode_literal. intros H.
  apply bind_ok in H. destruct H as ([i n] & E & H). rewrite (decode_integer_stable _ x _ _ E). cbn [bind].
  apply bind_ok in H. destruct H as ([nm c] & E2 & H).
  assert (G : (if i =? 0 then rest <- slice_from (buf ++ x) n ;; ' (nm, k) <- decode_string rest ;;
       Ok (name_from_bytes nm, n + k) else f <- get_from_table t i ;; Ok (fst f, n)) = Ok (nm, c)).
  { destruct (i =? 0); [|exact E2].
    apply bind_ok in E2. destruct E2 as (rest & E3 & E2). rewrite (slice_stable _ x _ _ E3). cbn [bind].
    apply bind_ok in E2. destruct E2 as ([s k] & E4 & E2). rewrite (decode_string_stable _ x _ E4). exact E2. }
  rewrite G. cbn [bind].
  apply bind_ok in H. destruct H as (rest & E3 & H). rewrite (slice_stable _ x _ _ E3). cbn [bind].
  apply bind_ok in H. destruct H as ([s k] & E4 & H). rewrite (decode_string_stable _ x _ E4). exact H.
Qed.

(** ** Locality: a success only depends on the octets consumed *)
Lemma int_loop_local buf : forall value m total v n, int_loop value m total buf = Ok (v, n) ->
  int_loop value m total (firstn (N.to_nat (n - total)) buf) = Ok (v, n).
Proof.
  induction buf as [|b buf IH]; intros value m total v n H; [discriminate H|].
  pose proof (int_loop_bound _ _ _ _ _ _ H) as [B _].
  replace (N.to_nat (n - total)) with (S (N.to_nat (n - (total + 1)))) by lia.
  cbn [int_loop firstn] in *. cbv zeta in *.
  destruct (negb _); [exact H|]. destruct (total + 1 =? 5); [discriminate H|]. apply IH, H.
Qed.

Lemma decode_integer_local buf p v n : decode_integer buf p = Ok (v, n) ->
  decode_integer (firstn (N.to_nat n) buf) p = Ok (v, n).
Proof.
  intros H. pose proof (decode_integer_bound _ _ _ _ H) as [B _]. unfold decode_integer in *.
  destruct (_ || _); [discriminate H|]. destruct buf as [|b buf]; [discriminate H|].
  replace (N.to_nat n) with (S (N.to_nat (n - 1))) by lia. cbn [firstn]. cbv zeta in *.
  destruct (_ <? _); [exact H|]. apply int_loop_local, H.
Qed.

Lemma firstn_firstn_le (buf : bytes) a b : a <= b ->
  firstn (N.to_nat a) (firstn (N.to_nat b) buf) = firstn (N.to_nat a) buf.
Proof. intros H. rewrite firstn_firstn. f_equal. lia. Qed.

Lemma skipn_firstn_add (buf : bytes) a b :
  skipn (N.to_nat a) (firstn (N.to_nat (a + b)) buf) = firstn (N.to_nat b) (skipn (N.to_nat a) buf).
Proof. rewrite skipn_firstn_comm. f_equal. lia. Qed.

Lemma blen_firstn (buf : bytes) n : n <= blen buf -> blen (firstn (N.to_nat n) buf) = n.
Proof. unfold blen. intros H. rewrite firstn_length. lia. Qed.

Lemma integer_seq buf p v n k : n <= k -> decode_integer buf p = Ok (v, n) ->
  decode_integer (firstn (N.to_nat k) buf) p = Ok (v, n).
Proof.
  intros L H. apply decode_integer_local in H. rewrite <- (firstn_firstn_le buf n k L) in H.
  rewrite <- (firstn_skipn (N.to_nat n) (firstn (N.to_nat k) buf)). apply decode_integer_stable, H.
Qed.

Lemma decode_string_local buf s n : decode_string buf = Ok (s, n) ->
  decode_string (firstn (N.to_nat n) buf) = Ok (s, n).
Proof.
  unfold decode_string. intros H. apply bind_ok in H. destruct H as ([len c] & E & H).
  pose proof (decode_integer_bound _ _ _ _ E) as [B1 B2].
  destruct (N.ltb_spec (blen buf) (c + len)) as [L|L]; [discriminate H|].
  assert (En : n = c + len).
  { destruct (_ =? _) in H; [apply bind_ok in H; destruct H as (d & _ & H)|]; injection H as _ <-; reflexivity. }
  subst n. rewrite (integer_seq buf 7 len c (c + len) ltac:(lia) E). cbn [bind].
  rewrite blen_firstn by lia. destruct (N.ltb_spec (c + len) (c + len)) as [L2|_]; [lia|].
  rewrite skipn_firstn_add, firstn_firstn, Nat.min_id.
  replace (hd 0 (firstn (N.to_nat (c + len)) buf)) with (hd 0 buf); [exact H|].
  destruct buf as [|b buf]; [rewrite blen_nil in B2; lia|].
  replace (N.to_nat (c + len)) with (S (N.to_nat (c + len - 1))) by lia. reflexivity.
Qed.

Lemma slice_ok buf n r : slice_from buf n = Ok r -> r = skipn (N.to_nat n) buf /\ n <= blen buf.
Proof. unfold slice_from. destruct (N.ltb_spec (blen buf) n) as [L|L]; [discriminate|]. intros [= <-]. auto. Qed.

Lemma string_seq buf n s k m : n <= blen buf -> decode_string (skipn (N.to_nat n) buf) = Ok (s, k) ->
  n + k <= m -> decode_string (skipn (N.to_nat n) (firstn (N.to_nat m) buf)) = Ok (s, k).
Proof.
  intros L H M. replace m with (n + (m - n)) by lia. rewrite skipn_firstn_add.
  apply decode_string_local in H. rewrite <- (firstn_firstn_le _ k (m - n)) in H by lia.
  rewrite <- (firstn_skipn (N.to_nat k) (firstn (N.to_nat (m - n)) (skipn (N.to_nat n) buf))).
  apply decode_string_stable, H.
Qed.

Lemma decode_string_bound buf s k : decode_string buf = Ok (s, k) -> 1 <= k /\ k <= blen buf.
Proof.
  intros H. destruct (decode_string_total buf) as [(s' & k' & E & B1 & B2)|(e & E & _)]; rewrite E in H; [|discriminate H].
  injection H as <- <-. auto.
Qed.

Lemma decode_literal_local t buf index f k : decode_literal t buf index = Ok (f, k) ->
  decode_literal t (firstn (N.to_nat k) buf) index = Ok (f, k).
Proof.
  intros H. assert (K : k <= blen buf).
  { destruct (decode_literal_total t buf index) as [(f' & k' & E & B1 & B2)|(e & E & _)]; rewrite E in H; [|discriminate H].
    injection H as <- <-. exact B2. }
  unfold decode_literal in *.
  apply bind_ok in H. destruct H as ([i n] & E & H).
  apply bind_ok in H. destruct H as ([nm c] & E2 & H).
  apply bind_ok in H. destruct H as (rest & E3 & H).
  apply bind_ok in H. destruct H as ([s m] & E4 & H). injection H as <- <-.
  apply slice_ok in E3. destruct E3 as [-> C].
  assert (NC : n <= c /\ (if i =? 0 then rest <- slice_from (firstn (N.to_nat (c + m)) buf) n ;;
       ' (nm, k) <- decode_string rest ;; Ok (name_from_bytes nm, n + k)
     else f <- get_from_table t i ;; Ok (fst f, n)) = Ok (nm, c)).
  { destruct (i =? 0).
    - apply bind_ok in E2. destruct E2 as (rest & E3 & E2). apply slice_ok in E3. destruct E3 as [-> N1].
      apply bind_ok in E2. destruct E2 as ([s2 k2] & E5 & E2). injection E2 as <- <-.
      split; [lia|]. unfold slice_from. rewrite blen_firstn by lia.
      destruct (N.ltb_spec (n + k2 + m) n) as [L|_]; [lia|]. cbn [bind].
      rewrite (string_seq _ _ _ _ (n + k2 + m) N1 E5) by lia. reflexivity.
    - split; [|exact E2]. apply bind_ok in E2. destruct E2 as (g & _ & E2). injection E2 as _ <-. lia. }
  destruct NC as [NC E5].
  rewrite (integer_seq buf _ i n (c + m) ltac:(lia) E). cbn [bind]. rewrite E5. cbn [bind].
  unfold slice_from. rewrite blen_firstn by lia. destruct (N.ltb_spec (c + m) c) as [L|_]; [lia|]. cbn [bind].
  rewrite (string_seq _ _ _ _ (c + m) C E4) by lia. reflexivity.
Qed.

Lemma decode_one_local t buf t' f k : 1 <= k -> decode_one t buf = Ok (t', Some f, k) ->
  decode_one t (firstn (N.to_nat k) buf) = Ok (t', Some f, k).
Proof.
  intros K H. unfold decode_one in *.
  replace (hd 0 (firstn (N.to_nat k) buf)) with (hd 0 buf)
    by (replace (N.to_nat k) with (S (N.to_nat (k - 1))) by lia; destruct buf; reflexivity).
  destruct (representation_of (hd 0 buf)); try exact H; apply bind_ok in H; destruct H as ([g j] & E & H);
    (assert (j = k) as -> by (first [injection H as _ _ <-; reflexivity
      | apply bind_ok in H; destruct H as (t2 & _ & H); injection H as _ _ <-; reflexivity]));
    rewrite (decode_literal_local _ _ _ _ _ E); exact H.
Qed.

(** Outcomes of one round. *)
Inductive round_outcome (t : hindex) (buf : bytes) : res (hindex * option hfield * N) -> Prop :=
| ro_field : forall t' f k, idx_inv t' -> hi_max t' = hi_max t -> 1 <= k -> k <= blen buf ->
    representation_of (hd 0 buf) <> RSizeUpdate ->
    round_outcome t buf (Ok (t', Some f, k))
| ro_size : representation_of (hd 0 buf) = RSizeUpdate -> round_outcome t buf (Ok (t, None, 0))
| ro_err : forall e, hpack_error e -> representation_of (hd 0 buf) <> RSizeUpdate ->
    round_outcome t buf (Err e).

Lemma decode_one_total t buf : idx_inv t -> buf <> [] -> round_outcome t buf (decode_one t buf).
Proof.
  intros I NE. unfold decode_one. destruct (representation_of (hd 0 buf)) eqn:R.
  - unfold decode_indexed, get_from_table. destruct (get_from_index _ _) as [f|]; cbn [bind].
    + apply ro_field; [exact I|reflexivity|lia| |congruence].
      destruct buf; [contradiction|]. rewrite blen_cons. lia.
    + apply ro_err; [left; eexists; reflexivity|congruence].
  - destruct (decode_literal_total t buf true) as [(f & k & -> & K1 & K2)|(e & -> & He)]; cbn [bind];
      [|apply ro_err; [exact He|congruence]].
    rewrite add_header_spec by exact I. cbn [bind].
    apply ro_field; [apply rfc_add_inv|reflexivity|exact K1|exact K2|congruence].
  - apply ro_size, R.
  - destruct (decode_literal_total t buf false) as [(f & k & -> & K1 & K2)|(e & -> & He)]; cbn [bind];
      [apply ro_field; auto; congruence|apply ro_err; [exact He|congruence]].
  - destruct (decode_literal_total t buf false) as [(f & k & -> & K1 & K2)|(e & -> & He)]; cbn [bind];
      [apply ro_field; auto; congruence|apply ro_err; [exact He|congruence]].
Qed.

Lemma decode_one_stable t buf x r : buf <> [] -> decode_one t buf = Ok r -> decode_one t (buf ++ x) = Ok r.
Proof.
  intros NE H. destruct buf as [|b buf]; [contradiction|]. unfold decode_one in *. cbn [hd app] in *.
  change (b :: buf ++ x) with ((b :: buf) ++ x).
  destruct (representation_of b); try exact H; apply bind_ok in H; destruct H as ([f k] & E & H);
    rewrite (decode_literal_stable _ _ x _ _ E); exact H.
Qed.

Lemma decode_loop_size f t buf : buf <> [] -> representation_of (hd 0 buf) = RSizeUpdate ->
  decode_loop f t buf = (t, Diverge).
Proof.
  intros NE R. induction f as [|f IH]; cbn [decode_loop]; [reflexivity|].
  destruct buf as [|b buf]; [contradiction|].
  unfold decode_one. rewrite R. change (N.to_nat 0) with 0%nat. cbn [skipn]. rewrite IH. reflexivity.
Qed.

Lemma skipn_shorter (buf : bytes) k : 1 <= k -> buf <> [] -> (length (skipn (N.to_nat k) buf) < length buf)%nat.
Proof. intros K NE. rewrite skipn_length. destruct buf; [contradiction|]. cbn [length]. lia. Qed.

(** Enough fuel is enough. *)
Lemma decode_loop_fuel f1 : forall f2 t buf, idx_inv t -> (length buf < f1)%nat -> (length buf < f2)%nat ->
  decode_loop f1 t buf = decode_loop f2 t buf.
Proof.
  induction f1 as [|f1 IH]; intros f2 t buf I L1 L2; [lia|]. destruct f2 as [|f2]; [lia|].
  destruct buf as [|b buf]; [reflexivity|].
  assert (NE : b :: buf <> []) by discriminate.
  destruct (representation_of (hd 0 (b :: buf))) eqn:R;
    try (rewrite !decode_loop_size by (assumption || discriminate); reflexivity);
    cbn [decode_loop];
    (destruct (decode_one_total t (b :: buf) I NE) as [t' f k I' M K1 K2 NR|R'|e He NR]; [|congruence|reflexivity]);
    rewrite (IH f2 t' (skipn (N.to_nat k) (b :: buf)) I'); try reflexivity;
    pose proof (skipn_shorter (b :: buf) k K1 NE); lia.
Qed.

(** The loop, one round at a time. *)
Lemma decode_headers_nil t : decode_headers t [] = (t, Ok []).
Proof. reflexivity. Qed.

Lemma decode_headers_field t buf t' f k : idx_inv t -> buf <> [] ->
  decode_one t buf = Ok (t', Some f, k) ->
  decode_headers t buf =
  let '(t2, r) := decode_headers t' (skipn (N.to_nat k) buf) in (t2, l <- r ;; Ok (f :: l)).
Proof.
  intros I NE E. unfold decode_headers at 1. cbn [decode_loop].
  pose proof (decode_one_total t buf I NE) as T. rewrite E in T. inversion T as [? ? ? I' M K1 K2 NR| |]; subst.
  rewrite E. destruct buf as [|b buf]; [contradiction|].
  unfold decode_headers. pose proof (skipn_shorter (b :: buf) k K1 NE) as SH.
  rewrite (decode_loop_fuel _ (S (length (skipn (N.to_nat k) (b :: buf)))) t' _ I'); [reflexivity|lia|lia].
Qed.

Lemma decode_headers_err t buf e : buf <> [] -> decode_one t buf = Err e -> decode_headers t buf = (t, Err e).
Proof.
  intros NE E. unfold decode_headers. cbn [decode_loop]. rewrite E. destruct buf; [contradiction|reflexivity].
Qed.

Lemma decode_headers_size t buf : buf <> [] -> representation_of (hd 0 buf) = RSizeUpdate ->
  decode_headers t buf = (t, Diverge).
Proof. intros NE R. apply decode_loop_size; assumption. Qed.

(** Induction along the rounds. *)
Lemma decode_headers_ind (P : hindex -> bytes -> Prop) :
  (forall t, idx_inv t -> P t []) ->
  (forall t buf t' f k, idx_inv t -> idx_inv t' -> hi_max t' = hi_max t -> buf <> [] -> 1 <= k -> k <= blen buf ->
     decode_one t buf = Ok (t', Some f, k) -> P t' (skipn (N.to_nat k) buf) -> P t buf) ->
  (forall t buf, idx_inv t -> buf <> [] -> representation_of (hd 0 buf) = RSizeUpdate -> P t buf) ->
  (forall t buf e, idx_inv t -> buf <> [] -> decode_one t buf = Err e -> hpack_error e -> P t buf) ->
  forall t buf, idx_inv t -> P t buf.
Proof.
  intros H0 H1 H2 H3 t buf I.
  remember (length buf) as n eqn:En. revert t buf I En.
  induction n as [n IH] using lt_wf_ind. intros t buf I En. subst n.
  destruct buf as [|b buf]; [apply H0, I|].
  assert (NE : b :: buf <> []) by discriminate.
  destruct (decode_one t (b :: buf)) as [[[t' o] k]|e| |] eqn:E;
    pose proof (decode_one_total t (b :: buf) I NE) as T; rewrite E in T; inversion T; subst.
  - eapply H1; try eassumption. eapply IH; [|eassumption|reflexivity]. apply skipn_shorter; assumption.
  - apply H2; assumption.
  - eapply H3; eassumption.
Qed.

(** Success is compositional. *)
Lemma decode_headers_app t a b : idx_inv t -> forall t1 fs, decode_headers t a = (t1, Ok fs) ->
  idx_inv t1 /\ hi_max t1 = hi_max t /\
  decode_headers t (a ++ b) = let '(t2, r) := decode_headers t1 b in (t2, l <- r ;; Ok (fs ++ l)).
Proof.
  intros I. revert t a I.
  apply (decode_headers_ind (fun t a => forall t1 fs, decode_headers t a = (t1, Ok fs) ->
    idx_inv t1 /\ hi_max t1 = hi_max t /\
    decode_headers t (a ++ b) = let '(t2, r) := decode_headers t1 b in (t2, l <- r ;; Ok (fs ++ l)))).
  - intros t I t1 fs H. rewrite decode_headers_nil in H. injection H as <- <-.
    split; [exact I|]. split; [reflexivity|]. cbn [app]. destruct (decode_headers t b) as [t2 r].
    f_equal. destruct r; reflexivity.
  - intros t buf t' f k I I' M NE K1 K2 E IH t1 fs H.
    rewrite (decode_headers_field _ _ _ _ _ I NE E) in H.
    destruct (decode_headers t' (skipn (N.to_nat k) buf)) as [t2 r] eqn:D.
    destruct r as [l| | |]; cbn [bind] in H; try discriminate H. injection H as -> <-.
    destruct (IH t1 l eq_refl) as (J1 & J2 & J3). split; [exact J1|]. split; [congruence|].
    assert (NE2 : buf ++ b <> []) by (destruct buf; [contradiction|discriminate]).
    rewrite (decode_headers_field t (buf ++ b) t' f k I NE2) by (apply decode_one_stable; assumption).
    assert (SK : skipn (N.to_nat k) (buf ++ b) = skipn (N.to_nat k) buf ++ b).
    { rewrite skipn_app. replace (N.to_nat k - length buf)%nat with 0%nat by (unfold blen in K2; lia). reflexivity. }
    rewrite SK, J3. destruct (decode_headers t1 b) as [t3 r3]. f_equal. destruct r3; reflexivity.
  - intros t buf I NE R t1 fs H. rewrite decode_headers_size in H by assumption. discriminate H.
  - intros t buf e I NE E He t1 fs H. rewrite (decode_headers_err _ _ _ NE E) in H. discriminate H.
Qed.

(** Every outcome. *)
Lemma decode_headers_total t buf : idx_inv t ->
  idx_inv (fst (decode_headers t buf)) /\ hi_max (fst (decode_headers t buf)) = hi_max t /\
  match snd (decode_headers t buf) with
  | Ok _ => True
  | Err e => hpack_error e
  | Panic => False
  | Diverge => exists pre x post t' fs, buf = pre ++ x :: post /\ representation_of x = RSizeUpdate /\
                 decode_headers t pre = (t', Ok fs)
  end.
Proof.
  intros I. revert t buf I.
  apply (decode_headers_ind (fun t buf =>
    idx_inv (fst (decode_headers t buf)) /\ hi_max (fst (decode_headers t buf)) = hi_max t /\
    match snd (decode_headers t buf) with
    | Ok _ => True
    | Err e => hpack_error e
    | Panic => False
    | Diverge => exists pre x post t' fs, buf = pre ++ x :: post /\ representation_of x = RSizeUpdate /\
                   decode_headers t pre = (t', Ok fs)
    end)).
  - intros t I. rewrite decode_headers_nil. cbn [fst snd]. auto.
  - intros t buf t' f k I I' M NE K1 K2 E IH.
    rewrite (decode_headers_field _ _ _ _ _ I NE E).
    destruct (decode_headers t' (skipn (N.to_nat k) buf)) as [t2 r] eqn:D. cbn [fst snd] in *.
    destruct IH as (J1 & J2 & J3). split; [exact J1|]. split; [congruence|].
    destruct r as [l|e| |]; cbn [bind]; [exact Logic.I|exact J3|exact J3|].
    destruct J3 as (pre & x & post & t3 & fs & F1 & F2 & F3).
    exists (firstn (N.to_nat k) buf ++ pre), x, post, t3, (f :: fs).
    split. { rewrite <- app_assoc, <- F1. symmetry. apply firstn_skipn. }
    split; [exact F2|].
    assert (NE2 : firstn (N.to_nat k) buf <> []).
    { intros C. pose proof (blen_firstn buf k K2) as B. rewrite C, blen_nil in B. lia. }
    assert (NE3 : firstn (N.to_nat k) buf ++ pre <> []) by (destruct (firstn (N.to_nat k) buf); [contradiction|discriminate]).
    rewrite (decode_headers_field t (firstn (N.to_nat k) buf ++ pre) t' f k I NE3)
      by (apply decode_one_stable; [exact NE2|apply decode_one_local; assumption]).
    replace (skipn (N.to_nat k) (firstn (N.to_nat k) buf ++ pre)) with pre; [rewrite F3; reflexivity|].
    rewrite skipn_app, skipn_firstn_comm, Nat.sub_diag. cbn [firstn app].
    pose proof (blen_firstn buf k K2) as B. unfold blen in B.
    replace (N.to_nat k - length (firstn (N.to_nat k) buf))%nat with 0%nat by lia. reflexivity.
  - intros t buf I NE R. rewrite (decode_headers_size _ _ NE R). cbn [fst snd].
    split; [exact I|]. split; [reflexivity|]. destruct buf as [|b buf]; [contradiction|].
    exists [], b, buf, t, []. auto.
  - intros t buf e I NE E He. rewrite (decode_headers_err _ _ _ NE E). cbn [fst snd]. auto.
Qed.
