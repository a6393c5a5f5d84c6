(** The language of the HPACK decoder (C62). *)
From Coq Require Import Ascii String NArith ZArith Lia Bool List ZifyBool ZifyNat ZifyN.
From Verif Require Import Base S_Utf8 P_Base M_Std M_Helper M_Header M_Huffman M_Hpack S_Huffman S_Hpack S_HpackAll P_Lossy P_Huffman P_Hpack P_HpackTable P_HpackCodec.
Import ListNotations.
Local Open Scope N_scope.
Ltac Zify.zify_post_hook ::= Z.div_mod_to_equations.

(** ** Strings *)
Lemma decode_string_read l s rest : str_read l s -> decode_string (l ++ rest) = Ok (s, blen l).
Proof.
  intros [h t HI HL HB|h c syms HI HL HC HB HH]; unfold decode_string; rewrite <- app_assoc;
    destruct (int_repr_head _ _ _ _ HI) as (x & h' & Eh & Hx1 & Hx2); change (2 ^ 7 - 1) with 127 in Hx2.
  - rewrite (decode_integer_repr 7 0 h _ _ ltac:(lia) (flag_0 7) HI HL). cbn [bind].
    rewrite !blen_app. destruct (N.ltb_spec (blen h + (blen t + blen rest)) (blen h + blen t)) as [A|_]; [lia|].
    rewrite skipn_blen, firstn_blen.
    rewrite Eh. cbn [hd app]. destruct (byte_parts x ltac:(lia)) as [_ E]. rewrite E.
    destruct (N.leb_spec 128 x) as [A|_]; [lia|]. reflexivity.
  - rewrite (decode_integer_repr 7 128 h _ _ ltac:(lia) flag_128 HI HL). cbn [bind].
    rewrite !blen_app. destruct (N.ltb_spec (blen h + (blen c + blen rest)) (blen h + blen c)) as [A|_]; [lia|].
    rewrite skipn_blen, firstn_blen.
    rewrite Eh. cbn [hd app]. destruct (byte_parts x ltac:(lia)) as [_ E]. rewrite E.
    destruct (N.leb_spec 128 x) as [_|A]; [|lia].
    rewrite (proj2 (huff_decode_exact c (map (fun x => x mod 256) syms))); [reflexivity|]. exists syms. auto.
Qed.
Lemma flag_7 fl : flag_bits 7 fl -> fl = 0 \/ fl = 128.
Proof. intros [L (k & ->)]. change (2 ^ 7) with 128 in *. lia. Qed.
Lemma bytes_app a b : bytes_ok (a ++ b) -> bytes_ok a /\ bytes_ok b.
Proof. apply Forall_app. Qed.
Lemma decode_string_exact buf s n : bytes_ok buf -> decode_string buf = Ok (s, n) -> exists l rest, buf = l ++ rest /\ str_read l s /\ n = blen l.
Proof.
  intros B H. unfold decode_string in H. apply bind_ok in H as ([len k] & E & H).
  destruct (decode_integer_exact buf 7 len k ltac:(lia) B E) as (fl & h & r & -> & F & R & -> & L).
  destruct (N.ltb_spec (blen (h ++ r)) (blen h + len)) as [A|A]; [discriminate|]. rewrite blen_app in A.
  rewrite skipn_blen in H. apply bytes_app in B as [Bh Br].
  assert (ER : r = firstn (N.to_nat len) r ++ skipn (N.to_nat len) r) by (symmetry; apply firstn_skipn).
  assert (EL : blen (firstn (N.to_nat len) r) = len) by (apply blen_firstn; lia).
  destruct (int_repr_head _ _ _ _ R) as (x & h' & Eh & Hx1 & Hx2). change (2 ^ 7 - 1) with 127 in Hx2.
  assert (Bx : x < 256) by (rewrite Eh in Bh; inversion Bh; assumption).
  rewrite Eh in H at 1. cbn [hd app] in H. destruct (byte_parts x Bx) as [_ Ex]. rewrite Ex in H.
  set (raw := firstn (N.to_nat len) r) in *. rewrite ER in Br. apply bytes_app in Br as [Braw _].
  exists (h ++ raw), (skipn (N.to_nat len) r). split; [rewrite <- app_assoc, <- ER; reflexivity|].
  destruct (flag_7 _ F) as [-> | ->].
  - destruct (N.leb_spec 128 x) as [K|_]; [lia|]. injection H as <- <-. split; [|rewrite blen_app, EL; reflexivity].
    constructor; [rewrite EL; exact R|unfold blen in L; lia|exact Braw].
  - destruct (N.leb_spec 128 x) as [_|K]; [|lia]. apply bind_ok in H as (d & Ed & H). injection H as <- <-.
    apply huff_decode_exact in Ed as (syms & S1 & S2 & ->). split; [|rewrite blen_app, EL; reflexivity].
    constructor; [rewrite EL; exact R|unfold blen in L; lia|exact Braw|exact S1|exact S2].
Qed.

(** ** Tables *)
Lemma get_from_index_read t i : get_from_index t i = read_lookup (hi_table t) i.
Proof.
  unfold read_lookup. destruct (N.eqb_spec i 15) as [->|N]; [reflexivity|]. apply get_from_index_rfc, N.
Qed.

(** ** Literals *)
Lemma literal_read_indexed t p fl i l e lv v rest (index : bool) :
  p = (if index then 6 else 4) -> flag_bits p fl ->
  int_repr p fl l i -> (length l <= 5)%nat -> read_lookup (hi_table t) i = Some e -> str_read lv v ->
  decode_literal t (l ++ lv ++ rest) index = Ok ((fst e, v), blen (l ++ lv)).
Proof.
  intros Ep Hf HI HL HG HS. rewrite <- get_from_index_read in HG. unfold decode_literal. rewrite <- Ep.
  assert (Pp : 1 <= p <= 8) by (destruct index; subst p; lia).
  rewrite (decode_integer_repr p fl l i (lv ++ rest) Pp Hf HI HL). cbn [bind].
  destruct (N.eqb_spec i 0) as [->|NZ]; [discriminate HG|].
  unfold get_from_table. rewrite HG. cbn [bind].
  rewrite slice_from_app. cbn [bind].
  rewrite (decode_string_read lv v rest HS). cbn [bind]. rewrite blen_app. reflexivity.
Qed.
Lemma literal_read_new t p fl n m ln v lv rest (index : bool) :
  p = (if index then 6 else 4) -> flag_bits p fl -> str_read ln n -> lossy n m -> str_read lv v ->
  decode_literal t ((fl :: ln ++ lv) ++ rest) index = Ok ((m, v), blen (fl :: ln ++ lv)).
Proof.
  intros Ep Hf HN HM HV. unfold decode_literal. rewrite <- Ep.
  assert (Pp : 1 <= p <= 8) by (destruct index; subst p; lia).
  replace ((fl :: ln ++ lv) ++ rest) with ([fl] ++ ln ++ lv ++ rest)
    by (cbn [app]; rewrite <- app_assoc; reflexivity).
  assert (HI : int_repr p fl [fl] 0).
  { replace [fl] with [fl + 0] by (f_equal; lia). constructor. pose proof (pow2_range p Pp). lia. }
  rewrite (decode_integer_repr p fl [fl] 0 _ Pp Hf HI) by (cbn [length]; lia). cbn [bind].
  change (0 =? 0) with true. cbv iota. rewrite slice_from_app. cbn [bind].
  rewrite (decode_string_read ln n _ HN). cbn [bind]. apply lossy_iff in HM. unfold name_from_bytes. rewrite <- HM.
  replace ([fl] ++ ln ++ lv ++ rest) with (([fl] ++ ln) ++ lv ++ rest) by (rewrite <- app_assoc; reflexivity).
  rewrite <- blen_app, slice_from_app. cbn [bind]. rewrite (decode_string_read lv v rest HV). cbn [bind].
  rewrite <- blen_app, <- app_assoc. reflexivity.
Qed.
Lemma int_zero p fl l : 1 <= p -> int_repr p fl l 0 -> l = [fl].
Proof.
  intros Hp H. remember 0 as z eqn:Ez. destruct H as [v Hv|l w Hl]; [subst; f_equal; lia|].
  assert (2 ^ 1 <= 2 ^ p) by (apply N.pow_le_mono_r; lia). change (2 ^ 1) with 2 in *. lia.
Qed.
Lemma literal_exact t buf (index : bool) f k : bytes_ok buf -> decode_literal t buf index = Ok (f, k) ->
  exists fl, flag_bits (if index then 6 else 4) fl /\
    ((exists i l e v lv rest, buf = (l ++ lv) ++ rest /\ int_repr (if index then 6 else 4) fl l i /\ (length l <= 5)%nat /\ read_lookup (hi_table t) i = Some e /\
        str_read lv v /\ f = (fst e, v) /\ k = blen (l ++ lv)) \/
     (exists n ln m v lv rest, buf = (fl :: ln ++ lv) ++ rest /\ str_read ln n /\ lossy n m /\ str_read lv v /\ f = (m, v) /\ k = blen (fl :: ln ++ lv))).
Proof.
  intros B H. unfold decode_literal in H. set (p := if index then 6 else 4) in *.
  assert (Pp : 1 <= p <= 8) by (unfold p; destruct index; lia).
  apply bind_ok in H as ([i n] & E & H). destruct (decode_integer_exact buf p i n Pp B E) as (fl & l & r & -> & F & R & -> & L).
  exists fl. split; [exact F|]. apply bytes_app in B as [Bl Br]. apply bind_ok in H as ([nm c] & E2 & H). destruct (N.eqb_spec i 0) as [->|NZ].
  - right. rewrite slice_from_app in E2. cbn [bind] in E2. apply bind_ok in E2 as ([s k2] & E3 & E2). injection E2 as <- <-.
    destruct (decode_string_exact r s k2 Br E3) as (ln & r2 & -> & S1 & ->). apply bytes_app in Br as [_ Br2].
    rewrite app_assoc, <- blen_app, slice_from_app in H. cbn [bind] in H. apply bind_ok in H as ([v k3] & E4 & H). injection H as <- <-.
    destruct (decode_string_exact r2 v k3 Br2 E4) as (lv & r3 & -> & S2 & ->). apply int_zero in R; [|lia]. subst l.
    exists s, ln, (name_from_bytes s), v, lv, r3. split; [cbn [app]; rewrite <- app_assoc; reflexivity|]. split; [exact S1|]. split; [apply lossy_spec|].
    split; [exact S2|]. split; [reflexivity|]. rewrite <- blen_app, <- app_assoc. reflexivity.
  - left. apply bind_ok in E2 as (g & E3 & E2). injection E2 as <- <-. unfold get_from_table in E3. rewrite get_from_index_read in E3.
    destruct (read_lookup (hi_table t) i) as [e|] eqn:EL; [|discriminate]. injection E3 as <-.
    rewrite slice_from_app in H. cbn [bind] in H. apply bind_ok in H as ([v k3] & E4 & H). injection H as <- <-.
    destruct (decode_string_exact r v k3 Br E4) as (lv & r3 & -> & S2 & ->).
    exists i, l, e, v, lv, r3. split; [rewrite app_assoc; reflexivity|]. split; [exact R|]. split; [unfold blen in L; lia|]. split; [exact EL|]. split; [exact S2|].
    split; [reflexivity|]. rewrite blen_app. reflexivity.
Qed.

(** ** Fields *)
Lemma str_read_pos l s : str_read l s -> 1 <= blen l.
Proof. intros [h t HI _ _|h c t HI _ _ _ _]; destruct (int_repr_head _ _ _ _ HI) as (x & h' & -> & _); rewrite blen_app, blen_cons; lia. Qed.
Lemma field_read_head max dyn l f d' : field_read max dyn l f d' -> exists x l', l = x :: l' /\ x < 256 /\ representation_of x <> RSizeUpdate.
Proof.
  intros [i g Hi HG|i l0 e v lv HI HL HG HS|n ln m v lv HN HM HV|fl i l0 e v lv Hfl HI HL HG HS|fl n ln m v lv Hfl HN HM HV].
  - exists (128 + i), []. split; [reflexivity|]. split; [lia|]. rewrite representation_spec by lia. destruct (N.leb_spec 128 (128 + i)); [discriminate|lia].
  - destruct (int_repr_head _ _ _ _ HI) as (x & h' & -> & A & B). change (2 ^ 6 - 1) with 63 in B. exists x, (h' ++ lv). split; [reflexivity|]. split; [lia|].
    rewrite representation_spec by lia. destruct (N.leb_spec 128 x); [lia|]. destruct (N.leb_spec 64 x); [discriminate|lia].
  - exists 64, (ln ++ lv). split; [reflexivity|]. split; [lia|]. vm_compute. discriminate.
  - destruct (int_repr_head _ _ _ _ HI) as (x & h' & -> & A & B). change (2 ^ 4 - 1) with 15 in B. exists x, (h' ++ lv). split; [reflexivity|]. split; [lia|].
    rewrite representation_spec by lia. destruct (N.leb_spec 128 x); [lia|]. destruct (N.leb_spec 64 x); [lia|]. destruct (N.leb_spec 32 x); [lia|].
    destruct (16 <=? x); discriminate.
  - exists fl, (ln ++ lv). split; [reflexivity|]. destruct Hfl as [-> | ->]; split; try lia; vm_compute; discriminate.
Qed.
Lemma decode_one_read t l f d' rest : idx_inv t -> field_read (hi_max t) (hi_table t) l f d' ->
  decode_one t (l ++ rest) = Ok (idx_of (hi_max t) d', Some f, blen l).
Proof.
  intros I H. destruct (inv_idx_of t I) as [Et Ts].
  destruct H as [i g Hi HG|i l0 e v lv HI HL HG HS|n ln m v lv HN HM HV|fl i l0 e v lv Hfl HI HL HG HS|fl n ln m v lv Hfl HN HM HV]; unfold decode_one.
  - cbn [app hd]. rewrite representation_spec by lia. destruct (N.leb_spec 128 (128 + i)) as [_|A]; [|lia].
    unfold decode_indexed, get_from_table. rewrite get_from_index_read.
    replace (N.land (128 + i) 127) with i; [rewrite HG; cbn [bind]; rewrite <- Et; reflexivity|].
    change 127 with (2 ^ 7 - 1). rewrite land_mask. change (2 ^ 7) with 128. lia.
  - destruct (int_repr_head _ _ _ _ HI) as (x & h' & El & A & B). change (2 ^ 6 - 1) with 63 in B.
    replace (representation_of (hd 0 ((l0 ++ lv) ++ rest))) with RIncremental.
    2:{ rewrite El. cbn [app hd]. rewrite representation_spec by lia. destruct (N.leb_spec 128 x); [lia|]. destruct (N.leb_spec 64 x); [reflexivity|lia]. }
    rewrite <- app_assoc. rewrite (literal_read_indexed t 6 64 i l0 e lv v rest true eq_refl flag_64 HI HL HG HS). cbn [bind].
    rewrite add_header_spec by exact I. reflexivity.
  - change (representation_of (hd 0 ((64 :: ln ++ lv) ++ rest))) with RIncremental. cbv iota.
    rewrite (literal_read_new t 6 64 n m ln v lv rest true eq_refl flag_64 HN HM HV). cbn [bind].
    rewrite add_header_spec by exact I. reflexivity.
  - destruct (int_repr_head _ _ _ _ HI) as (x & h' & El & A & B). change (2 ^ 4 - 1) with 15 in B.
    assert (F : flag_bits 4 fl) by (destruct Hfl as [-> | ->]; [apply flag_0|apply flag_16]).
    assert (R : representation_of (hd 0 ((l0 ++ lv) ++ rest)) = RNever \/ representation_of (hd 0 ((l0 ++ lv) ++ rest)) = RWithout).
    { rewrite El. cbn [app hd]. rewrite representation_spec by lia. destruct (N.leb_spec 128 x); [lia|]. destruct (N.leb_spec 64 x); [lia|]. destruct (N.leb_spec 32 x); [lia|].
      destruct (16 <=? x); auto. }
    rewrite <- app_assoc in *. rewrite (literal_read_indexed t 4 fl i l0 e lv v rest false eq_refl F HI HL HG HS). cbn [bind].
    destruct R as [-> | ->]; rewrite <- Et; reflexivity.
  - assert (F : flag_bits 4 fl) by (destruct Hfl as [-> | ->]; [apply flag_0|apply flag_16]).
    rewrite (literal_read_new t 4 fl n m ln v lv rest false eq_refl F HN HM HV). cbn [bind]. cbn [app hd].
    destruct Hfl as [-> | ->]; rewrite <- Et; reflexivity.
Qed.
Lemma flag_6 fl x : flag_bits 6 fl -> fl <= x <= fl + 63 -> 64 <= x < 128 -> fl = 64.
Proof. intros [L (k & ->)]. change (2 ^ 6) with 64 in *. lia. Qed.
Lemma flag_4 fl x : flag_bits 4 fl -> fl <= x <= fl + 15 -> x < 32 -> fl = 0 \/ fl = 16.
Proof. intros [L (k & ->)]. change (2 ^ 4) with 16 in *. lia. Qed.
Lemma decode_one_exact t buf t' f k : idx_inv t -> bytes_ok buf -> buf <> [] -> decode_one t buf = Ok (t', Some f, k) ->
  exists l rest d', buf = l ++ rest /\ field_read (hi_max t) (hi_table t) l f d' /\ k = blen l /\ t' = idx_of (hi_max t) d'.
Proof.
  intros I B NE H. destruct (inv_idx_of t I) as [Et Ts]. destruct buf as [|x buf]; [congruence|].
  assert (Bx : x < 256) by (inversion B; assumption). unfold decode_one in H. cbn [hd] in H. rewrite representation_spec in H by exact Bx.
  destruct (N.leb_spec 128 x) as [A|A].
  { apply bind_ok in H as ([g n] & E & H). injection H as <- <- <-. unfold decode_indexed, get_from_table in E.
    rewrite get_from_index_read in E. change 127 with (2 ^ 7 - 1) in E. rewrite land_mask in E. change (2 ^ 7) with 128 in E.
    destruct (read_lookup _ _) as [e|] eqn:EL; [|discriminate]. injection E as <- <-.
    exists [x], buf, (hi_table t). split; [reflexivity|]. split; [|split; [reflexivity|exact Et]].
    replace [x] with [128 + x mod 128] by (f_equal; lia). constructor; [lia|exact EL]. }
  destruct (N.leb_spec 64 x) as [C|C].
  { apply bind_ok in H as ([g n] & E & H). rewrite add_header_spec in H by exact I. cbn [bind] in H. injection H as <- <- <-.
    destruct (literal_exact t _ true g n B E) as (fl & F & [(i & l & e & v & lv & rest & Eb & R & L & EL & S & -> & ->)|(s & ln & m & v & lv & rest & Eb & S1 & S2 & S3 & -> & ->)]).
    - destruct (int_repr_head _ _ _ _ R) as (y & h' & El & A1 & A2). change (2 ^ 6 - 1) with 63 in A2.
      assert (y = x) as -> by (rewrite El in Eb; injection Eb; congruence). rewrite (flag_6 fl x F ltac:(lia) ltac:(lia)) in *.
      exists (l ++ lv), rest, (rfc_add (hi_max t) (hi_table t) (fst e, v)). split; [exact Eb|]. split; [econstructor; eassumption|]. split; reflexivity.
    - assert (fl = x) as -> by (injection Eb; congruence). rewrite (flag_6 x x F ltac:(lia) ltac:(lia)) in *.
      exists (64 :: ln ++ lv), rest, (rfc_add (hi_max t) (hi_table t) (m, v)). split; [exact Eb|]. split; [econstructor; eassumption|]. split; reflexivity. }
  destruct (N.leb_spec 32 x) as [D|D]; [discriminate|].
  assert (H' : ' (f, k) <- decode_literal t (x :: buf) false ;; Ok (t, Some f, k) = Ok (t', Some f, k)) by (destruct (16 <=? x); exact H). clear H.
  apply bind_ok in H' as ([g n] & E & H). injection H as <- <- <-.
  destruct (literal_exact t _ false g n B E) as (fl & F & [(i & l & e & v & lv & rest & Eb & R & L & EL & S & -> & ->)|(s & ln & m & v & lv & rest & Eb & S1 & S2 & S3 & -> & ->)]).
  - destruct (int_repr_head _ _ _ _ R) as (y & h' & El & A1 & A2). change (2 ^ 4 - 1) with 15 in A2.
    assert (y = x) as -> by (rewrite El in Eb; injection Eb; congruence). pose proof (flag_4 fl x F ltac:(lia) ltac:(lia)) as Hfl.
    exists (l ++ lv), rest, (hi_table t). split; [exact Eb|]. split; [econstructor; eassumption|]. split; [reflexivity|exact Et].
  - assert (fl = x) as -> by (injection Eb; congruence). pose proof (flag_4 x x F ltac:(lia) ltac:(lia)) as Hfl.
    exists (x :: ln ++ lv), rest, (hi_table t). split; [exact Eb|]. split; [econstructor; eassumption|]. split; [reflexivity|exact Et].
Qed.

(** ** Blocks *)
Lemma field_read_inv max dyn l f d' : total_size dyn <= max -> field_read max dyn l f d' -> total_size d' <= max.
Proof. intros T [ | | | | ]; try exact T; apply newest_size. Qed.
Lemma decode_read max dyn l fs dyn' : total_size dyn <= max -> block_read max dyn l fs dyn' -> decode_headers (idx_of max dyn) l = (idx_of max dyn', Ok fs).
Proof.
  intros T H. induction H as [|dyn l f d1 ls fs d2 HF HB IH]; [reflexivity|].
  pose proof (field_read_inv _ _ _ _ _ T HF) as T1. specialize (IH T1). destruct (field_read_head _ _ _ _ _ HF) as (x & l' & El & _).
  rewrite (decode_headers_field (idx_of max dyn) (l ++ ls) (idx_of max d1) f (blen l)).
  - rewrite skipn_blen, IH. reflexivity.
  - apply idx_of_inv, T.
  - rewrite El. discriminate.
  - apply (decode_one_read (idx_of max dyn)); [apply idx_of_inv, T|exact HF].
Qed.
Lemma decode_exact t buf : idx_inv t -> bytes_ok buf -> forall t' fs, decode_headers t buf = (t', Ok fs) ->
  exists dyn', block_read (hi_max t) (hi_table t) buf fs dyn' /\ t' = idx_of (hi_max t) dyn'.
Proof.
  intros I. revert t buf I. apply (decode_headers_ind (fun t buf => bytes_ok buf -> forall t' fs, decode_headers t buf = (t', Ok fs) ->
    exists dyn', block_read (hi_max t) (hi_table t) buf fs dyn' /\ t' = idx_of (hi_max t) dyn')).
  - intros t I B t' fs H. rewrite decode_headers_nil in H. injection H as <- <-. exists (hi_table t). split; [constructor|apply inv_idx_of, I].
  - intros t buf t1 f k I I1 M NE K1 K2 E IH B t' fs H. rewrite (decode_headers_field t buf t1 f k I NE E) in H.
    destruct (decode_one_exact t buf t1 f k I B NE E) as (l & rest & d' & -> & HF & -> & ->). rewrite skipn_blen in *. apply bytes_app in B as [_ B].
    destruct (decode_headers _ rest) as [t2 [fs2|e| |]] eqn:E2; cbn [bind] in H; try discriminate. injection H as <- <-.
    destruct (IH B _ _ eq_refl) as (dyn' & HB & ->). exists dyn'. split; [econstructor; eassumption|reflexivity].
  - intros t buf I NE R B t' fs H. rewrite (decode_headers_size t buf NE R) in H. discriminate.
  - intros t buf e I NE E _ B t' fs H. rewrite (decode_headers_err t buf e NE E) in H. discriminate.
Qed.
Lemma decode_iff t buf t' fs : idx_inv t -> bytes_ok buf ->
  (decode_headers t buf = (t', Ok fs) <-> exists dyn', block_read (hi_max t) (hi_table t) buf fs dyn' /\ t' = mkIdx dyn' (total_size dyn') (hi_max t)).
Proof.
  intros I B. split; [apply decode_exact; assumption|]. intros (dyn' & H & ->). destruct (inv_idx_of t I) as [Et Ts]. rewrite Et at 1. apply decode_read; assumption.
Qed.
