(** Lemmas for C102: the errors of the frame reader. *)
From Coq Require Import Ascii String NArith ZArith Lia Bool List ZifyBool ZifyNat ZifyN.
From Verif Require Import Base S_Utf8 P_Base M_Std M_Helper M_Header M_Url M_Http1 S_Http1 S_Http1Api P_Std P_Helper P_Header P_Http1 P_Msg M_Huffman M_Hpack S_Huffman S_Hpack S_HpackApi
  S_HpackAll P_Huffman P_Hpack P_HpackTable P_HpackCodec P_HpackSync P_Lossy P_HpackExact M_Frame M_H2 S_Frame S_H2Api P_Frame P_Settings P_Ctl P_H2 P_H2All M_Build S_Build P_Build2 P_Access S_FrameAll P_FrameAll S_Refuse.
From Verif Require Import S_Hpack.
Import ListNotations.
Local Open Scope N_scope.
Ltac Zify.zify_post_hook ::= Z.div_mod_to_equations.

(** ** Integers *)
Lemma int_loop_err buf : forall value m total e, bytes_ok buf -> 1 <= total <= 4 ->
  (int_loop value m total buf = Err e <->
   (Forall continues buf /\ total + blen buf <= 4 /\ e = int_err NotEnoughOctetsI) \/
   (exists c rest, buf = c ++ rest /\ Forall continues c /\ total + blen c = 5 /\ e = int_err TooManyOctets)).
Proof.
  induction buf as [|b buf IH]; intros value m total e B T; cbn [int_loop].
  - split.
    + intros [= <-]. left. split; [constructor|]. split; [change (blen []) with 0; lia|reflexivity].
    + intros [(_ & _ & ->)|(c & rest & E & _ & L & _)]; [reflexivity|]. symmetry in E. apply app_eq_nil in E as [-> ->]. change (blen []) with 0 in L. lia.
  - apply bytes_ok_cons in B as [Bb B]. destruct (byte_parts b Bb) as [_ E2]. rewrite E2. unfold byte_ok in Bb.
    destruct (N.leb_spec 128 b) as [C|C]; cbn [negb].
    + destruct (N.eqb_spec (total + 1) 5) as [F|F].
      * split.
        -- intros [= <-]. right. exists [b], buf. split; [reflexivity|]. split; [repeat constructor; lia|]. rewrite blen_cons. change (blen []) with 0. split; [lia|reflexivity].
        -- intros [(_ & L & _)|(c & rest & E & _ & _ & ->)]; [rewrite blen_cons in L; lia|reflexivity].
      * rewrite IH by (assumption || lia). split.
        -- intros [(A & L & ->)|(c & rest & -> & A & L & ->)].
           ++ left. split; [constructor; [split; assumption|exact A]|]. rewrite blen_cons. split; [lia|reflexivity].
           ++ right. exists (b :: c), rest. split; [reflexivity|]. split; [constructor; [split; assumption|exact A]|]. rewrite blen_cons. split; [lia|reflexivity].
        -- intros [(A & L & ->)|(c & rest & E & A & L & ->)].
           ++ left. inversion A. rewrite blen_cons in L. split; [assumption|]. split; [lia|reflexivity].
           ++ destruct c as [|b' c]; [change (blen []) with 0 in L; lia|]. injection E as <- ->. inversion A. rewrite blen_cons in L.
              right. exists c, rest. split; [reflexivity|]. split; [assumption|]. split; [lia|reflexivity].
    + split; [discriminate|]. intros [(A & _)|(c & rest & E & A & L & _)].
      * inversion A as [|? ? K _]. unfold continues in K. lia.
      * destruct c as [|b' c]; [change (blen []) with 0 in L; lia|]. injection E as <- _. inversion A as [|? ? K _]. unfold continues in K. lia.
Qed.
Lemma int_bad_head p fl l e : int_bad p fl l e -> exists r, l = fl + (2 ^ p - 1) :: r.
Proof. intros [c _ _|c rest _ _]; eauto. Qed.
Lemma decode_integer_bad p fl l e : 1 <= p <= 8 -> flag_bits p fl -> bytes_ok l -> int_bad p fl l e -> decode_integer l p = Err e.
Proof.
  intros Hp [F (k & Ek)] B H. unfold decode_integer.
  destruct (N.ltb_spec p 1) as [A|_]; [lia|]. destruct (N.ltb_spec 8 p) as [A|_]; [lia|]. cbn [orb].
  pose proof (pow2_range p Hp) as R. destruct (int_bad_head _ _ _ _ H) as (r & E). rewrite E. cbv zeta. rewrite prefix_mask_eq by exact Hp. rewrite land_mask.
  assert (X : (fl + (2 ^ p - 1)) mod 2 ^ p = 2 ^ p - 1).
  { rewrite Ek, N.add_comm, N.mod_add by lia. apply N.mod_small. lia. }
  rewrite X. rewrite N.ltb_irrefl. subst l. apply bytes_ok_cons in B as [_ B]. apply int_loop_err; [exact B|lia|].
  inversion H as [c C L|c rest C L]; subst.
  - left. split; [exact C|]. unfold blen. split; [lia|reflexivity].
  - right. exists c, rest. unfold blen. split; [reflexivity|]. split; [exact C|]. split; [lia|reflexivity].
Qed.
Lemma decode_integer_err p l e : 1 <= p <= 8 -> bytes_ok l -> l <> [] -> decode_integer l p = Err e -> exists fl, flag_bits p fl /\ int_bad p fl l e.
Proof.
  intros Hp B NE H. unfold decode_integer in H.
  destruct (N.ltb_spec p 1) as [A|_]; [lia|]. destruct (N.ltb_spec 8 p) as [A|_]; [lia|]. cbn [orb] in H.
  pose proof (pow2_range p Hp) as R. rewrite prefix_mask_eq in H by exact Hp.
  destruct l as [|b l]; [contradiction|]. cbv zeta in H. rewrite land_mask in H. apply bytes_ok_cons in B as [Bb B].
  assert (P : 2 ^ p <> 0) by lia.
  pose proof (N.mod_lt b (2 ^ p) P) as M. pose proof (N.div_mod b (2 ^ p) P) as DM. pose proof (N.mul_div_le b (2 ^ p) P) as LE.
  destruct (N.ltb_spec (b mod 2 ^ p) (2 ^ p - 1)) as [L|L]; [discriminate H|].
  assert (Eb : b = b / 2 ^ p * 2 ^ p + (2 ^ p - 1)) by (rewrite (N.mul_comm (b / 2 ^ p)); lia).
  exists (b / 2 ^ p * 2 ^ p). split.
  { split; [unfold byte_ok in Bb; rewrite N.mul_comm; lia|]. exists (b / 2 ^ p). reflexivity. }
  apply int_loop_err in H; [|exact B|lia]. unfold int_err in H.
  destruct H as [(C & Q & ->)|(c & rest & -> & C & Q & ->)].
  - pose proof (ib_end p (b / 2 ^ p * 2 ^ p) l C ltac:(unfold blen in Q; lia)) as X. rewrite <- Eb in X. exact X.
  - pose proof (ib_long p (b / 2 ^ p * 2 ^ p) c rest C ltac:(unfold blen in Q; lia)) as X. rewrite <- Eb in X. exact X.
Qed.

(** ** Strings *)
Lemma flag_7_bits fl : fl = 0 \/ fl = 128 -> flag_bits 7 fl.
Proof. intros [-> | ->]; [apply flag_0|apply flag_128]. Qed.
Lemma decode_string_bad l e : bytes_ok l -> str_bad l e -> decode_string l = Err e.
Proof.
  intros B H. unfold decode_string. destruct H as [|fl l e F H|fl h n s F R L S|h c rest R L N].
  - reflexivity.
  - rewrite (decode_integer_bad 7 fl l e ltac:(lia) (flag_7_bits fl F) B H). reflexivity.
  - rewrite (decode_integer_repr 7 fl h n s ltac:(lia) (flag_7_bits fl F) R L). cbn [bind]. rewrite blen_app.
    destruct (N.ltb_spec (blen h + blen s) (blen h + n)) as [_|A]; [reflexivity|lia].
  - rewrite (decode_integer_repr 7 128 h _ _ ltac:(lia) flag_128 R L). cbn [bind].
    rewrite !blen_app. destruct (N.ltb_spec (blen h + (blen c + blen rest)) (blen h + blen c)) as [A|_]; [lia|].
    rewrite skipn_blen, firstn_blen. destruct (int_repr_head _ _ _ _ R) as (x & h' & Eh & Hx1 & Hx2). change (2 ^ 7 - 1) with 127 in Hx2.
    rewrite Eh. cbn [hd app]. destruct (byte_parts x ltac:(lia)) as [_ E]. rewrite E.
    destruct (N.leb_spec 128 x) as [_|A]; [|lia].
    destruct (huff_decode_total c) as [(s & D & _)|D]; [|rewrite D; reflexivity].
    apply huff_decode_exact in D as (syms & S1 & S2 & _). exfalso. exact (N syms S1 S2).
Qed.
Lemma decode_string_err l e : bytes_ok l -> decode_string l = Err e -> str_bad l e.
Proof.
  intros B H. destruct l as [|b0 l0]; [injection H as <-; constructor|]. set (l := b0 :: l0) in *. assert (NE : l <> []) by discriminate. clearbody l.
  unfold decode_string in H. destruct (decode_integer l 7) as [[len k]|e'| |] eqn:E; try discriminate H; cbn [bind] in H.
  2:{ injection H as <-. destruct (decode_integer_err 7 l e' ltac:(lia) B NE E) as (fl & F & I). eapply sb_length; [exact (flag_7 fl F)|exact I]. }
  destruct (decode_integer_exact l 7 len k ltac:(lia) B E) as (fl & h & r & -> & F & R & -> & L).
  destruct (N.ltb_spec (blen (h ++ r)) (blen h + len)) as [A|A]; rewrite blen_app in A.
  { injection H as <-. eapply sb_short; [exact (flag_7 fl F)|exact R|unfold blen in L; lia|lia]. }
  rewrite skipn_blen in H. apply bytes_app in B as [Bh Br].
  assert (ER : r = firstn (N.to_nat len) r ++ skipn (N.to_nat len) r) by (symmetry; apply firstn_skipn).
  assert (EL : blen (firstn (N.to_nat len) r) = len) by (apply blen_firstn; lia).
  destruct (int_repr_head _ _ _ _ R) as (x & h' & Eh & Hx1 & Hx2). change (2 ^ 7 - 1) with 127 in Hx2.
  assert (Bx : x < 256) by (rewrite Eh in Bh; inversion Bh; assumption).
  rewrite Eh in H at 1. cbn [hd app] in H. destruct (byte_parts x Bx) as [_ Ex]. rewrite Ex in H.
  set (raw := firstn (N.to_nat len) r) in *. destruct (flag_7 _ F) as [-> | ->].
  - destruct (N.leb_spec 128 x) as [K|_]; [lia|discriminate H].
  - destruct (N.leb_spec 128 x) as [_|K]; [|lia]. rewrite ER. destruct (huff_decode_total raw) as [(s & D & _)|D]; rewrite D in H; [discriminate H|].
    injection H as <-. apply sb_code; [rewrite EL; exact R|unfold blen in L; lia|]. intros syms S1 S2.
    rewrite (proj2 (huff_decode_exact raw (map (fun x => x mod 256) syms))) in D; [discriminate D|]. exists syms. auto.
Qed.

(** ** Fields *)
Definition lit_of (index : bool) : N := if index then 6 else 4.
Lemma literal_flag p fl : literal p fl -> exists index, p = lit_of index /\ flag_bits p fl /\ 1 <= p <= 8.
Proof. intros [ | | ]; [exists true|exists false..]; (split; [reflexivity|]; split; [|cbn; lia]); [apply flag_64|apply flag_0|apply flag_16]. Qed.
Lemma lookup_zero dyn : read_lookup dyn 0 = None.
Proof. reflexivity. Qed.
Lemma literal_number_bad t index fl l e : flag_bits (lit_of index) fl -> bytes_ok l -> int_bad (lit_of index) fl l e -> decode_literal t l index = Err e.
Proof.
  intros F B H. unfold decode_literal. change (if index then 6 else 4) with (lit_of index).
  rewrite (decode_integer_bad (lit_of index) fl l e ltac:(destruct index; cbn; lia) F B H). reflexivity.
Qed.
Lemma literal_unknown_bad t index fl i l rest : flag_bits (lit_of index) fl -> int_repr (lit_of index) fl l i -> (length l <= 5)%nat -> i <> 0 ->
  read_lookup (hi_table t) i = None -> decode_literal t (l ++ rest) index = Err out_of_bounds.
Proof.
  intros F R L NZ N. unfold decode_literal. change (if index then 6 else 4) with (lit_of index).
  rewrite (decode_integer_repr (lit_of index) fl l i rest ltac:(destruct index; cbn; lia) F R L). cbn [bind].
  destruct (N.eqb_spec i 0) as [A|_]; [contradiction|]. unfold get_from_table. rewrite get_from_index_read, N. reflexivity.
Qed.
Lemma int_repr_zero p fl : 1 <= p <= 8 -> int_repr p fl [fl] 0.
Proof.
  intros Hp. pose proof (pow2_range p Hp). assert (2 ^ 1 <= 2 ^ p) by (apply N.pow_le_mono_r; lia). change (2 ^ 1) with 2 in *.
  pose proof (int_short p fl 0 ltac:(lia)) as H1. rewrite N.add_0_r in H1. exact H1.
Qed.
Lemma slice_one b l : slice_from (b :: l) 1 = Ok l.
Proof. exact (slice_from_app [b] l). Qed.
Lemma literal_name_bad t index fl l e : flag_bits (lit_of index) fl -> bytes_ok l -> str_bad l e -> decode_literal t (fl :: l) index = Err e.
Proof.
  intros F B H. unfold decode_literal. change (if index then 6 else 4) with (lit_of index).
  assert (P : 1 <= lit_of index <= 8) by (destruct index; cbn; lia).
  pose proof (decode_integer_repr (lit_of index) fl [fl] 0 l P F (int_repr_zero _ _ P) ltac:(cbn; lia)) as E.
  change ([fl] ++ l) with (fl :: l) in E. rewrite E. cbn [bind]. change (0 =? 0) with true. cbv iota. change (blen [fl]) with 1.
  rewrite slice_one. cbn [bind]. rewrite (decode_string_bad l e B H). reflexivity.
Qed.
Lemma literal_value_bad t index fl i l f r e : flag_bits (lit_of index) fl -> int_repr (lit_of index) fl l i -> (length l <= 5)%nat ->
  read_lookup (hi_table t) i = Some f -> bytes_ok r -> str_bad r e -> decode_literal t (l ++ r) index = Err e.
Proof.
  intros F R L S B H. unfold decode_literal. change (if index then 6 else 4) with (lit_of index).
  rewrite (decode_integer_repr (lit_of index) fl l i r ltac:(destruct index; cbn; lia) F R L). cbn [bind].
  destruct (N.eqb_spec i 0) as [->|_]; [rewrite lookup_zero in S; discriminate S|]. unfold get_from_table. rewrite get_from_index_read, S. cbn [bind].
  rewrite slice_from_app. cbn [bind]. rewrite (decode_string_bad r e B H). reflexivity.
Qed.
Lemma literal_named_bad t index fl ln n r e : flag_bits (lit_of index) fl -> str_read ln n -> bytes_ok r -> str_bad r e ->
  decode_literal t (fl :: ln ++ r) index = Err e.
Proof.
  intros F S B H. unfold decode_literal. change (if index then 6 else 4) with (lit_of index).
  assert (P : 1 <= lit_of index <= 8) by (destruct index; cbn; lia).
  pose proof (decode_integer_repr (lit_of index) fl [fl] 0 (ln ++ r) P F (int_repr_zero _ _ P) ltac:(cbn; lia)) as E.
  change ([fl] ++ ln ++ r) with (fl :: ln ++ r) in E. rewrite E. cbn [bind]. change (0 =? 0) with true. cbv iota. change (blen [fl]) with 1.
  rewrite slice_one. cbn [bind]. rewrite (decode_string_read ln n r S). cbn [bind].
  replace (1 + blen ln) with (blen (fl :: ln)) by (rewrite blen_cons; lia). change (fl :: ln ++ r) with ((fl :: ln) ++ r).
  rewrite slice_from_app. cbn [bind]. rewrite (decode_string_bad r e B H). reflexivity.
Qed.
Inductive lit_bad (t : hindex) (p fl : N) : bytes -> werr -> Prop :=
| lx_number l e : int_bad p fl l e -> lit_bad t p fl l e
| lx_unknown i l rest : int_repr p fl l i -> (length l <= 5)%nat -> i <> 0 -> read_lookup (hi_table t) i = None -> lit_bad t p fl (l ++ rest) out_of_bounds
| lx_name l e : str_bad l e -> lit_bad t p fl (fl :: l) e
| lx_value_indexed i l f r e : int_repr p fl l i -> (length l <= 5)%nat -> read_lookup (hi_table t) i = Some f -> str_bad r e -> lit_bad t p fl (l ++ r) e
| lx_value ln n r e : str_read ln n -> str_bad r e -> lit_bad t p fl (fl :: ln ++ r) e.
Lemma decode_literal_bad t index fl l e : flag_bits (lit_of index) fl -> bytes_ok l -> lit_bad t (lit_of index) fl l e -> decode_literal t l index = Err e.
Proof.
  intros F B X. destruct X as [l0 e0 H|i l0 rest R L NZ N|l0 e0 H|i l0 f r e0 R L S H|ln n r e0 S H].
  - exact (literal_number_bad t index fl l0 e0 F B H).
  - exact (literal_unknown_bad t index fl i l0 rest F R L NZ N).
  - apply bytes_ok_cons in B as [_ B]. exact (literal_name_bad t index fl l0 e0 F B H).
  - apply bytes_app in B as [_ B]. exact (literal_value_bad t index fl i l0 f r e0 F R L S B H).
  - apply bytes_ok_cons in B as [_ B]. apply bytes_app in B as [_ B]. exact (literal_named_bad t index fl ln n r e0 F S B H).
Qed.
Lemma decode_literal_err t index l e : bytes_ok l -> l <> [] -> decode_literal t l index = Err e ->
  exists fl, flag_bits (lit_of index) fl /\ lit_bad t (lit_of index) fl l e.
Proof.
  intros B NE H. unfold decode_literal in H. change (if index then 6 else 4) with (lit_of index) in H.
  assert (P : 1 <= lit_of index <= 8) by (destruct index; cbn; lia).
  destruct (decode_integer l (lit_of index)) as [[i k]|e'| |] eqn:E; try discriminate H; cbn [bind] in H.
  2:{ injection H as <-. destruct (decode_integer_err _ l e' P B NE E) as (fl & F & I). exists fl. split; [exact F|]. apply lx_number, I. }
  destruct (decode_integer_exact l _ i k P B E) as (fl & h & r & -> & F & R & -> & L).
  exists fl. split; [exact F|]. apply bytes_app in B as [Bl Br]. assert (L' : (length h <= 5)%nat) by (unfold blen in L; lia).
  destruct (N.eqb_spec i 0) as [->|NZ].
  - apply int_zero in R; [|lia]. subst h. rewrite slice_from_app in H. cbn [bind] in H. cbn [app].
    destruct (decode_string r) as [[s k2]|e2| |] eqn:E2; try discriminate H; cbn [bind] in H.
    2:{ injection H as <-. apply lx_name, decode_string_err; assumption. }
    destruct (decode_string_exact r s k2 Br E2) as (ln & r2 & -> & S1 & ->). apply bytes_app in Br as [_ Br2].
    rewrite app_assoc, <- blen_app, slice_from_app in H. cbn [bind] in H.
    destruct (decode_string r2) as [[v k3]|e3| |] eqn:E3; try discriminate H; cbn [bind] in H. injection H as <-.
    eapply lx_value; [exact S1|]. apply decode_string_err; assumption.
  - unfold get_from_table in H. rewrite get_from_index_read in H. destruct (read_lookup (hi_table t) i) as [f|] eqn:EL; cbn [bind] in H.
    + rewrite slice_from_app in H. cbn [bind] in H.
      destruct (decode_string r) as [[v k3]|e3| |] eqn:E3; try discriminate H; cbn [bind] in H. injection H as <-.
      eapply lx_value_indexed; [exact R|exact L'|exact EL|]. apply decode_string_err; assumption.
    + injection H as <-. eapply lx_unknown; eassumption.
Qed.
Lemma lit_bad_head t p fl l e : 1 <= p <= 8 -> lit_bad t p fl l e -> exists x r, l = x :: r /\ fl <= x <= fl + (2 ^ p - 1).
Proof.
  intros P H. pose proof (pow2_range p P) as PR. destruct H as [l e H0|i l rest R _ _ _|l e _|i l f r e R _ _ _|ln n r e _ _].
  - destruct (int_bad_head _ _ _ _ H0) as (r & ->). eexists. eexists. split; [reflexivity|lia].
  - destruct (int_repr_head _ _ _ _ R) as (x & h & -> & A & B). exists x, (h ++ rest). split; [reflexivity|lia].
  - exists fl, l. split; [reflexivity|lia].
  - destruct (int_repr_head _ _ _ _ R) as (x & h & -> & A & B). exists x, (h ++ r). split; [reflexivity|lia].
  - exists fl, (ln ++ r). split; [reflexivity|lia].
Qed.
Lemma field_bad_lit t p fl l e : literal p fl -> lit_bad t p fl l e -> field_bad (hi_table t) l e.
Proof. intros T [ | | | | ]; [eapply fb_number|eapply fb_unknown|eapply fb_name|eapply fb_value_indexed|eapply fb_value]; eassumption. Qed.
Lemma decode_one_bad t l e : bytes_ok l -> field_bad (hi_table t) l e -> decode_one t l = Err e.
Proof.
  intros B H.
  assert (G : (exists i rest, l = 128 + i :: rest /\ i < 128 /\ read_lookup (hi_table t) i = None /\ e = out_of_bounds) \/
              exists p fl, literal p fl /\ lit_bad t p fl l e).
  { destruct H as [i rest I N|p fl l e T H|p fl i l rest T R L NZ N|p fl l e T H|p fl i l f r e T R L S H|p fl ln n r e T S H].
    - left. exists i, rest. auto.
    - right. exists p, fl. split; [exact T|apply lx_number, H].
    - right. exists p, fl. split; [exact T|eapply lx_unknown; eassumption].
    - right. exists p, fl. split; [exact T|apply lx_name, H].
    - right. exists p, fl. split; [exact T|eapply lx_value_indexed; eassumption].
    - right. exists p, fl. split; [exact T|eapply lx_value; eassumption]. }
  destruct G as [(i & rest & -> & I & N & ->)|(p & fl & T & X)].
  - unfold decode_one. cbn [hd]. rewrite representation_spec by lia. destruct (N.leb_spec 128 (128 + i)) as [_|A]; [|lia].
    unfold decode_indexed, get_from_table. rewrite get_from_index_read.
    replace (N.land (128 + i) 127) with i; [rewrite N; reflexivity|].
    change 127 with (2 ^ 7 - 1). rewrite land_mask. change (2 ^ 7) with 128. lia.
  - destruct (literal_flag p fl T) as (index & -> & F & P). destruct (lit_bad_head _ _ _ _ _ P X) as (x & r & -> & A).
    pose proof (decode_literal_bad t index fl _ e F B X) as D. unfold decode_one. cbn [hd].
    assert (Bx : x < 256) by (inversion B; assumption). rewrite representation_spec by exact Bx.
    inversion T; destruct index; try (exfalso; cbn in *; congruence); subst.
    + cbn [lit_of] in *. change (2 ^ 6 - 1) with 63 in A. destruct (N.leb_spec 128 x); [lia|]. destruct (N.leb_spec 64 x); [|lia]. rewrite D. reflexivity.
    + cbn [lit_of] in *. change (2 ^ 4 - 1) with 15 in A. destruct (N.leb_spec 128 x); [lia|]. destruct (N.leb_spec 64 x); [lia|]. destruct (N.leb_spec 32 x); [lia|].
      destruct (16 <=? x); rewrite D; reflexivity.
    + cbn [lit_of] in *. change (2 ^ 4 - 1) with 15 in A. destruct (N.leb_spec 128 x); [lia|]. destruct (N.leb_spec 64 x); [lia|]. destruct (N.leb_spec 32 x); [lia|].
      destruct (16 <=? x); rewrite D; reflexivity.
Qed.
Lemma decode_one_err t l e : idx_inv t -> bytes_ok l -> l <> [] -> decode_one t l = Err e -> field_bad (hi_table t) l e.
Proof.
  intros I B NE H. destruct l as [|x l]; [contradiction|]. assert (Bx : x < 256) by (inversion B; assumption).
  unfold decode_one in H. cbn [hd] in H. rewrite representation_spec in H by exact Bx.
  destruct (N.leb_spec 128 x) as [A|A].
  { unfold decode_indexed, get_from_table in H. rewrite get_from_index_read in H. change 127 with (2 ^ 7 - 1) in H. rewrite land_mask in H. change (2 ^ 7) with 128 in H.
    destruct (read_lookup _ _) as [f|] eqn:EL; [discriminate H|]. injection H as <-.
    replace (x :: l) with (128 + x mod 128 :: l) by (f_equal; lia). apply fb_indexed; [lia|exact EL]. }
  destruct (N.leb_spec 64 x) as [C|C].
  { destruct (decode_literal t (x :: l) true) as [[f k]|e'| |] eqn:E; try discriminate H; cbn [bind] in H.
    - rewrite add_header_spec in H by exact I. discriminate H.
    - injection H as <-. destruct (decode_literal_err t true _ _ B NE E) as (fl & F & X). cbn [lit_of] in *.
      destruct (lit_bad_head t 6 fl _ _ ltac:(lia) X) as (y & r & Ey & R). injection Ey as -> ->. change (2 ^ 6 - 1) with 63 in R.
      rewrite (flag_6 fl y F ltac:(lia) ltac:(lia)) in *. eapply field_bad_lit; [apply lit_add|exact X]. }
  destruct (N.leb_spec 32 x) as [D|D]; [discriminate H|].
  assert (H' : ' (f, k) <- decode_literal t (x :: l) false ;; Ok (t, Some f, k) = Err e) by (destruct (16 <=? x); exact H). clear H.
  destruct (decode_literal t (x :: l) false) as [[f k]|e'| |] eqn:E; try discriminate H'; cbn [bind] in H'.
  injection H' as <-. destruct (decode_literal_err t false _ _ B NE E) as (fl & F & X). cbn [lit_of] in *.
  destruct (lit_bad_head t 4 fl _ _ ltac:(lia) X) as (y & r & Ey & R). injection Ey as -> ->. change (2 ^ 4 - 1) with 15 in R.
  destruct (flag_4 fl y F ltac:(lia) ltac:(lia)) as [-> | ->]; eapply field_bad_lit; [apply lit_without|exact X|apply lit_never|exact X].
Qed.

(** ** Blocks *)
Lemma field_bad_nonempty dyn l e : field_bad dyn l e -> l <> [].
Proof.
  intros [i rest _ _|p fl l0 e0 _ H|p fl i l0 rest _ R _ _ _|p fl l0 e0 _ _|p fl i l0 f r e0 _ R _ _ _|p fl ln n r e0 _ _ _]; try discriminate.
  - destruct (int_bad_head _ _ _ _ H) as (r & ->). discriminate.
  - destruct (int_repr_head _ _ _ _ R) as (x & h & -> & _). discriminate.
  - destruct (int_repr_head _ _ _ _ R) as (x & h & -> & _). discriminate.
Qed.
Lemma decode_block_bad max dyn l e dyn' : total_size dyn <= max -> bytes_ok l -> block_bad max dyn l e dyn' ->
  decode_headers (idx_of max dyn) l = (idx_of max dyn', Err e).
Proof.
  intros T B H. induction H as [dyn l e F|dyn l f d1 ls e d2 HF HB IH].
  - apply decode_headers_err; [exact (field_bad_nonempty _ _ _ F)|]. apply decode_one_bad; [exact B|exact F].
  - pose proof (field_read_inv _ _ _ _ _ T HF) as T1. apply bytes_app in B as [_ B]. specialize (IH T1 B).
    assert (I : idx_inv (idx_of max dyn)) by (apply idx_of_inv, T).
    pose proof (decode_one_read (idx_of max dyn) l f d1 ls I HF) as E. cbn [hi_max idx_of] in E.
    rewrite (decode_headers_field (idx_of max dyn) (l ++ ls) (idx_of max d1) f (blen l) I); [|destruct (field_read_head _ _ _ _ _ HF) as (x & l' & -> & _); discriminate|exact E].
    rewrite skipn_blen, IH. reflexivity.
Qed.
Lemma decode_block_err t l : idx_inv t -> bytes_ok l -> forall t' e, decode_headers t l = (t', Err e) ->
  exists dyn', block_bad (hi_max t) (hi_table t) l e dyn' /\ t' = idx_of (hi_max t) dyn'.
Proof.
  intros I. revert t l I. apply (decode_headers_ind (fun t l => bytes_ok l -> forall t' e, decode_headers t l = (t', Err e) ->
    exists dyn', block_bad (hi_max t) (hi_table t) l e dyn' /\ t' = idx_of (hi_max t) dyn')).
  - intros t I B t' e H. rewrite decode_headers_nil in H. discriminate H.
  - intros t buf t1 f k I I1 M NE K1 K2 E IH B t' e H. rewrite (decode_headers_field t buf t1 f k I NE E) in H.
    destruct (decode_one_exact t buf t1 f k I B NE E) as (l & rest & d' & -> & HF & -> & ->). rewrite skipn_blen in *. apply bytes_app in B as [_ B].
    destruct (decode_headers _ rest) as [t2 [fs2|e2| |]] eqn:E2; cbn [bind] in H; try discriminate. injection H as <- <-.
    destruct (IH B _ _ eq_refl) as (dyn' & HB & ->). exists dyn'. split; [econstructor; eassumption|reflexivity].
  - intros t buf I NE R B t' e H. rewrite (decode_headers_size t buf NE R) in H. discriminate.
  - intros t buf e I NE E _ B t' e' H. rewrite (decode_headers_err t buf e NE E) in H. injection H as <- <-.
    exists (hi_table t). split; [apply bb_here, decode_one_err; assumption|apply inv_idx_of, I].
Qed.
Lemma decode_err_iff t l t' e : idx_inv t -> bytes_ok l ->
  (decode_headers t l = (t', Err e) <-> exists dyn', block_bad (hi_max t) (hi_table t) l e dyn' /\ t' = mkIdx dyn' (total_size dyn') (hi_max t)).
Proof.
  intros I B. split; [apply decode_block_err; assumption|]. intros (dyn' & H & ->). destruct (inv_idx_of t I) as [Et Ts]. rewrite Et at 1. apply decode_block_bad; assumption.
Qed.

(** ** Header lists *)
Lemma method_err v : (forall m, ~ method_value v m) <-> method_of_str (utf8_lossy v) = Err (EHttp MethodErr).
Proof.
  split.
  - intros N. apply method_try_from_err. intros m s I E. apply (N m), method_value_ok, method_try_from. eauto.
  - intros E m H. apply method_value_ok in H. congruence.
Qed.
Lemma scheme_err v : (forall c, ~ scheme_value v c) <-> scheme_of_str (utf8_lossy v) = Err (EUrl UrlInvalid).
Proof.
  split.
  - intros N. unfold scheme_of_str. destruct (N.ltb_spec 64 (blen (utf8_lossy v))) as [_|L]; [reflexivity|]. exfalso.
    apply (N (scheme_named (utf8_lossy v))), scheme_value_ok, scheme_named_spec, L.
  - intros E c H. apply scheme_value_ok in H. congruence.
Qed.
Lemma status_err v : (forall c, ~ status_value v c) <-> status_from_bytes (utf8_lossy v) = Err (EHttp InvalidStatusCode).
Proof.
  split.
  - intros N. destruct (from_bytes_err (utf8_lossy v)) as [(c & E)|E]; [|exact E]. apply status_value_ok in E. destruct (N c E).
  - intros E c H. apply status_value_ok in H. congruence.
Qed.
Lemma method_cases t : (exists m, method_of_str t = Ok m) \/ method_of_str t = Err (EHttp MethodErr).
Proof. unfold method_of_str. repeat (match goal with |- context [if ?b then _ else _] => destruct b end; [eauto|]). auto. Qed.
Lemma hdr_field_outcome h f : (field_fine f /\ exists h', hdr_field h f = Ok h') \/ exists e, value_bad f e /\ hdr_field h f = Err e.
Proof.
  destruct f as [n v]. unfold hdr_field.
  assert (O : n <> str ":method" -> n <> str ":scheme" -> n <> str ":status" -> field_fine (n, v)) by (intros A B C; split; [|split]; intros E; contradiction).
  assert (X : forall s, In s [":method"; ":scheme"; ":status"]%string -> name_is_spec (str s) = true) by (intros s [<-|[<-|[<-|[]]]]; reflexivity).
  destruct (name_is_spec n) eqn:Sp.
  2:{ left. split; [|eauto]. apply O; intros ->; discriminate Sp. }
  destruct (beq n (str ":authority")) eqn:E1.
  { left. split; [|eauto]. apply beq_eq in E1. subst n. apply O; discriminate. }
  destruct (beq n (str ":method")) eqn:E2.
  { apply beq_eq in E2. subst n. destruct (method_cases (utf8_lossy v)) as [(m & M)|M]; rewrite M.
    - left. split; [|cbn [bind]; eauto]. split; [|split]; cbn [fst snd]; intros E; try discriminate E. exists m. apply method_value_ok, M.
    - right. eexists. split; [apply vb_method, method_err, M|reflexivity]. }
  destruct (beq n (str ":path")) eqn:E3.
  { left. split; [|eauto]. apply beq_eq in E3. subst n. apply O; discriminate. }
  destruct (beq n (str ":scheme")) eqn:E4.
  { apply beq_eq in E4. subst n. destruct (N.ltb_spec 64 (blen (utf8_lossy v))) as [L|L].
    - right. exists (EUrl UrlInvalid). assert (M : scheme_of_str (utf8_lossy v) = Err (EUrl UrlInvalid)) by (unfold scheme_of_str; destruct (N.ltb_spec 64 (blen (utf8_lossy v))); [reflexivity|lia]).
      rewrite M. split; [apply vb_scheme, scheme_err, M|reflexivity].
    - left. pose proof (scheme_named_spec _ L) as M. rewrite M. split; [|cbn [bind]; eauto]. split; [|split]; cbn [fst snd]; intros E; try discriminate E. eexists. apply scheme_value_ok, M. }
  destruct (beq n (str ":status")) eqn:E5.
  { apply beq_eq in E5. subst n. destruct (from_bytes_err (utf8_lossy v)) as [(c & M)|M]; rewrite M.
    - left. split; [|cbn [bind]; eauto]. split; [|split]; cbn [fst snd]; intros E; try discriminate E. exists c. apply status_value_ok, M.
    - right. eexists. split; [apply vb_status, status_err, M|reflexivity]. }
  left. split; [|eauto]. apply O; intros ->; [discriminate E2|discriminate E4|discriminate E5].
Qed.
Lemma value_bad_not f e : value_bad f e -> ~ field_fine f.
Proof.
  intros [v N|v N|v N] (A & B & C); cbn [fst snd] in *.
  - destruct (A eq_refl) as (m & H). exact (N m H).
  - destruct (B eq_refl) as (m & H). exact (N m H).
  - destruct (C eq_refl) as (m & H). exact (N m H).
Qed.
Lemma value_bad_fun f e e' : value_bad f e -> value_bad f e' -> e = e'.
Proof. intros H K. destruct H; inversion K; reflexivity. Qed.
Lemma total_app a b : total_size (a ++ b) = total_size a + total_size b.
Proof. induction a as [|f a IH]; [reflexivity|]. cbn [app total_size fold_right]. fold (total_size (a ++ b)) (total_size a). lia. Qed.
Lemma total_cons f l : total_size (f :: l) = size_of f + total_size l.
Proof. reflexivity. Qed.
(** The list that is left when the sum of the sizes so far is [s]. *)
Inductive rest_bad (L s : N) (fs : list hfield) : werr -> Prop :=
| rb_limit a f b : fs = a ++ f :: b -> Forall field_fine a -> s + total_size a <= L -> L < s + total_size (a ++ [f]) -> rest_bad L s fs out_of_bounds
| rb_value a f b e : fs = a ++ f :: b -> Forall field_fine a -> s + total_size (a ++ [f]) <= L -> value_bad f e -> rest_bad L s fs e.
Lemma hdr_collect_err L (fs : list hfield) : forall s h e, s <= L -> ((exists h', hdr_collect L s h fs = (h', Err e)) <-> rest_bad L s fs e).
Proof.
  induction fs as [|f fs IH]; intros s h e SL; cbn [hdr_collect].
  { split; [intros (h' & H); discriminate H|]. intros [a f b E _ _ _|a f b e0 E _ _ _]; destruct a; discriminate E. }
  change (blen (fst f) + blen (snd f) + 32) with (size_of f).
  destruct (N.ltb_spec L (s + size_of f)) as [A|A].
  - split.
    + intros (h' & H). injection H as _ <-. apply (rb_limit L s _ [] f fs); [reflexivity|constructor|cbn [total_size fold_right]; lia|]. cbn [app total_size fold_right]; lia.
    + intros H. exists h. inversion H as [a g b E F Q R|a g b e0 E F Q V]; subst; [reflexivity|]. exfalso. destruct a as [|x a]; injection E as <- _.
      * cbn [app total_size fold_right] in Q; lia.
      * rewrite <- app_comm_cons, total_cons in Q. lia.
  - unfold try_. destruct (hdr_field_outcome h f) as [(FF & h1 & E)|(e1 & V & E)]; rewrite E.
    + rewrite IH by exact A. split; intros H.
      * inversion H as [a g b E0 F Q R|a g b e0 E0 F Q V]; subst.
        -- eapply (rb_limit L s _ (f :: a)); [reflexivity|constructor; assumption|rewrite total_cons; lia|]. rewrite <- app_comm_cons, total_cons. lia.
        -- eapply (rb_value L s _ (f :: a)); [reflexivity|constructor; assumption| |exact V]. rewrite <- app_comm_cons, total_cons. lia.
      * inversion H as [a g b E0 F Q R|a g b e0 E0 F Q V]; subst; destruct a as [|x a]; injection E0 as -> ->.
        -- cbn [app total_size fold_right] in R; lia.
        -- inversion F. rewrite <- app_comm_cons, total_cons in *. eapply rb_limit; [reflexivity|assumption|lia|lia].
        -- destruct (value_bad_not _ _ V FF).
        -- inversion F. rewrite <- app_comm_cons, total_cons in *. eapply rb_value; [reflexivity|assumption|lia|exact V].
    + split.
      * intros (h' & H). injection H as _ <-. apply (rb_value L s _ [] f fs); [reflexivity|constructor|cbn [app total_size fold_right]; lia|exact V].
      * intros H. exists h. inversion H as [a g b E0 F Q R|a g b e0 E0 F Q V0]; subst; destruct a as [|x a]; injection E0 as -> ->.
        -- cbn [app total_size fold_right] in R; lia.
        -- inversion F. destruct (value_bad_not _ _ V). assumption.
        -- rewrite (value_bad_fun _ _ _ V0 V). reflexivity.
        -- inversion F. destruct (value_bad_not _ _ V). assumption.
Qed.
Lemma list_bad_iff L h fs e : (exists h', hdr_collect L 0 h fs = (h', Err e)) <-> list_bad L fs e.
Proof.
  rewrite hdr_collect_err by lia. split; (intros [a f b E F Q R|a f b e0 E F Q V]; [|]); rewrite ?N.add_0_l in *.
  - eapply lb_limit; eassumption.
  - eapply lb_value; eassumption.
  - eapply rb_limit; rewrite ?N.add_0_l; eassumption.
  - eapply rb_value; rewrite ?N.add_0_l; eassumption.
Qed.

(** ** Frames *)
Lemma block_headers_bad t h l L t' e : idx_inv t -> bytes_ok l ->
  ((exists h', (let '(t1, r) := decode_headers t l in
     match r with
     | Ok fs => let '(h2, c) := hdr_collect L 0 h fs in (t1, h2, u <- c ;; Ok (blen l))
     | Err e => (t1, h, Err e)
     | Panic => (t1, h, Panic)
     | Diverge => (t1, h, Diverge)
     end) = (t', h', Err e)) <-> headers_bad L t l e t').
Proof.
  intros I B. split.
  - intros (h' & H). destruct (decode_headers t l) as [t1 [fs|e1| |]] eqn:E; try discriminate H.
    + destruct (hdr_collect L 0 h fs) as [h2 [[]|e2| |]] eqn:C; cbn [bind] in H; try discriminate H. injection H as <- <- <-.
      apply decode_iff in E as (dyn & R & ->); [|assumption..]. eapply hb_list; [exact R|]. apply (list_bad_iff L h). eauto.
    + injection H as <- <- <-. apply decode_err_iff in E as (dyn & R & ->); [|assumption..]. apply hb_block, R.
  - intros [e1 dyn R|fs dyn e1 R Q].
    + rewrite (proj2 (decode_err_iff t l _ e1 I B) (ex_intro _ dyn (conj R eq_refl))). eauto.
    + rewrite (proj2 (decode_iff t l _ fs I B) (ex_intro _ dyn (conj R eq_refl))). apply (list_bad_iff L h) in Q as (h2 & Q). rewrite Q. cbn [bind]. eauto.
Qed.
Lemma dep_load_long l : bytes_ok l -> 5 <= blen l -> exists d r, dep_load l = Ok (d, r).
Proof.
  intros B S. destruct (four_more l B) as (v & r & V & -> & Br); [lia|]. rewrite blen_app in S. change (blen (octets4 v)) with 4 in S.
  destruct r as [|w r]; [rewrite blen_nil in S; lia|]. rewrite dep_load_exact by exact V. eauto.
Qed.
Lemma headers_err t h l L t' e : idx_inv t -> bytes_ok l ->
  ((let '(t1, hf, r) := headers_parse t (headers_new h []) l L in (t1, u <- r ;; Ok (FHeaders hf))) = (t', Err e) <->
   frame_bad L t 1 (fh_flag h) (fh_id h) l e t').
Proof.
  intros I B. destruct (P_Access.flag_bits (fh_flag h)) as (_ & _ & _ & _ & P). unfold headers_parse, headers_new. cbn [hf_flags]. rewrite P.
  assert (X : forall h1 l1, bytes_ok l1 -> ((let '(t1, hf, r) :=
       (let '(t1, r) := decode_headers t l1 in
        match r with
        | Ok fs => let '(h2, c) := hdr_collect L 0 h1 fs in (t1, h2, u <- c ;; Ok (blen l1))
        | Err e => (t1, h1, Err e)
        | Panic => (t1, h1, Panic)
        | Diverge => (t1, h1, Diverge)
        end) in (t1, u <- r ;; Ok (FHeaders hf))) = (t', Err e) <-> headers_bad L t l1 e t')).
  { intros h1 l1 B1. rewrite <- (block_headers_bad t h1 l1 L t' e I B1). destruct (decode_headers t l1) as [t1 r] eqn:E. split.
    - intros H. destruct r as [fs|e1| |]; cbn [bind] in H; try discriminate H.
      + destruct (hdr_collect L 0 h1 fs) as [h2 [u|e2| |]]; cbn [bind] in *; try discriminate H. injection H as <- <-. eauto.
      + injection H as <- <-. eauto.
    - intros (h' & H). rewrite H. reflexivity. }
  destruct (N.testbit (fh_flag h) 5) eqn:T.
  - destruct (N.ltb_spec (blen l) 5) as [S|S].
    + rewrite dep_load_short by exact S. cbn [bind]. split.
      * intros [= <- <-]. apply xb_headers_dep; assumption.
      * intros H. inversion H as [fl id l0 e0 t0 N|fl id d l0 e0 t0 F D| | | | | | | | | | | | | |]; subst; try lia.
        -- unfold flag_on in N. congruence.
        -- unfold dep_octets in S. rewrite !blen_app in S. change (blen (octets4 _)) with 4 in S. change (blen [_]) with 1 in S. lia.
        -- reflexivity.
    + destruct (dep_load_long l B S) as (d & r & D). rewrite D.
      pose proof D as D'. apply dep_load_iff in D' as (R & El); [|exact B]. assert (B2 : bytes_ok r) by (rewrite El in B; apply bytes_app in B as [_ B]; exact B).
      cbn [bind]. rewrite X by exact B2. split.
      * intros H. rewrite El. apply xb_headers_prio; assumption.
      * intros H. clear El. inversion H as [fl id l0 e0 t0 N|fl id d0 l0 e0 t0 F D0 K E1 E2 E3 E4| | | | | | | | | | | | | |]; subst; try lia.
        -- unfold flag_on in N. congruence.
        -- rewrite (proj2 (dep_load_iff _ d0 l0 B) (conj D0 eq_refl)) in D. injection D as <- <-. exact K.
  - rewrite X by exact B. split.
    + intros H. apply xb_headers; [unfold flag_on; congruence|exact H].
    + intros H. inversion H as [fl id l0 e0 t0 N|fl id d0 l0 e0 t0 F D0| | | | | | | | | | | | | |]; subst; try lia; try (unfold flag_on in *; congruence).
Qed.
Lemma bind_err {A B} (r : res A) (g : A -> B) (t t' : hindex) e :
  (t, x <- r ;; Ok (g x)) = (t', Err e) <-> t = t' /\ r = Err e.
Proof.
  split.
  - intros H. destruct r; try discriminate H. cbn [bind] in H. injection H as <- <-. auto.
  - intros (<- & ->). reflexivity.
Qed.
Lemma padding_err h p e : fh_length h = blen p -> (trim_padding h p = Err e <->
  exists n q, p = n :: q /\ flag_on (fh_flag h) 3 /\ blen (n :: q) < n /\ e = EHttp2 (TooMuchPadding n)).
Proof.
  intros L. destruct (P_Access.flag_bits (fh_flag h)) as (_ & _ & _ & P & _). unfold trim_padding. rewrite P. unfold flag_on.
  destruct (N.testbit (fh_flag h) 3).
  - destruct p as [|n r]; [split; [discriminate|]; intros (n & q & K & _); discriminate K|]. destruct (N.ltb_spec (fh_length h) n) as [C|C].
    + split; [intros [= <-]; exists n, r; rewrite <- L; auto|]. intros (m & q & [= <- <-] & _ & _ & ->). reflexivity.
    + split; [discriminate|]. intros (m & q & [= <- <-] & _ & K & ->). lia.
  - split; [discriminate|]. intros (n & q & _ & K & _). discriminate K.
Qed.
Lemma type_nine ty : ty < 256 -> (type_means ty KContinuation \/ type_means ty KUnregistered <-> 9 <= ty).
Proof.
  intros T. split.
  - intros [[M|[_ M]]|[M|[M _]]]; try discriminate M.
    + cbn in M. repeat (destruct M as [M|M]; [try discriminate M; injection M as <-; lia|]). contradiction.
    + cbn in M. repeat (destruct M as [M|M]; [discriminate M|]). contradiction.
    + destruct (N.ltb_spec ty 9) as [K|K]; [exfalso|exact K].
      pose proof (kind_new_means ty) as [Q|[_ Q]]; [exact (M _ Q)|].
      assert (C : ty = 0 \/ ty = 1 \/ ty = 2 \/ ty = 3 \/ ty = 4 \/ ty = 5 \/ ty = 6 \/ ty = 7 \/ ty = 8) by lia.
      repeat (destruct C as [->|C]; [discriminate Q|]). subst ty. discriminate Q.
  - intros K. pose proof (kind_new_means ty) as M. destruct (N.eq_dec ty 9) as [->|NE]; [left; exact M|]. right. right. split; [|reflexivity].
    intros k H. cbn in H. repeat (destruct H as [H|H]; [injection H as H _; lia|]). exact H.
Qed.
Lemma window_err h l e : fh_kind h = KWindowUpdate -> bytes_ok l -> (winupd_parse h l = Err e <->
  blen l <> 4 /\ e = EHttp2 BadFrameSize \/ exists r, r <= 1 /\ l = octets4 (r * 2147483648) /\ e = EHttp2 InvalidWindowUpdateValue).
Proof.
  intros K B. destruct (winupd_exact h l K B) as (X1 & X2 & X3). split.
  - intros H. destruct (N.eq_dec (blen l) 4) as [L|L]; [right|left; rewrite X2 in H by exact L; split; congruence].
    destruct (four l B L) as (v & V & ->). destruct (N.eq_dec (v mod 2147483648) 0) as [Z|Z].
    + exists (v / 2147483648). split; [lia|]. replace (v / 2147483648 * 2147483648) with v by lia. split; [reflexivity|].
      rewrite (X3 (v / 2147483648)) in H; [congruence|lia|f_equal; lia].
    + rewrite (proj2 (X1 (mkWin (fh_id h) (v mod 2147483648)))) in H; [discriminate H|]. exists (v / 2147483648), (v mod 2147483648).
      split; [lia|]. split; [lia|]. split; [f_equal; lia|reflexivity].
  - intros [(L & ->)|(r & R & E & ->)]; [exact (X2 L)|exact (X3 r R E)].
Qed.
Lemma priority_err h l e : bytes_ok l -> (priority_parse h l = Err e <->
  blen l < 5 /\ e = EHttp2 InvalidPayloadLength \/
  exists d junk, dep_range d /\ dp_id d = fh_id h /\ l = dep_octets d ++ junk /\ e = EHttp2 InvalidDependencyId).
Proof.
  intros B. unfold priority_parse. destruct (N.ltb_spec (blen l) 5) as [S|S].
  - rewrite dep_load_short by exact S. cbn [bind]. split; [intros [= <-]; auto|]. intros [(_ & ->)|(d & j & R & _ & -> & _)]; [reflexivity|].
    unfold dep_octets in S. rewrite !blen_app in S. change (blen (octets4 _)) with 4 in S. change (blen [_]) with 1 in S. lia.
  - destruct (dep_load_long l B S) as (d & r & D). rewrite D. cbn [bind]. pose proof D as D'. apply dep_load_iff in D' as (R & El); [|exact B].
    destruct (N.eqb_spec (dp_id d) (fh_id h)) as [Q|Q].
    + split; [intros [= <-]; right; exists d, r; auto|]. intros [(K & _)|(d' & j & _ & _ & _ & ->)]; [lia|reflexivity].
    + split; [discriminate|]. intros [(K & _)|(d' & j & R' & K & E' & ->)]; [lia|].
      rewrite (proj2 (dep_load_iff l d' j B) (conj R' E')) in D. injection D as -> ->. contradiction.
Qed.
Lemma reset_err h l e : bytes_ok l -> (reset_parse h l = Err e <-> blen l <> 4 /\ e = EHttp2 InvalidPayloadLength).
Proof.
  intros B. destruct (reset_exact h l B) as (X1 & X2). destruct (N.eq_dec (blen l) 4) as [L|L].
  - destruct (four l B L) as (v & V & E). rewrite (proj2 (X1 (mkReset (fh_id h) v))) by eauto. split; [discriminate|]. intros (K & _). contradiction.
  - rewrite X2 by exact L. split; [intros [= <-]; auto|]. intros (_ & ->). reflexivity.
Qed.
Lemma goaway_err l e : bytes_ok l -> (goaway_parse l = Err e <-> blen l < 8 /\ e = EHttp2 BadFrameSize).
Proof.
  intros B. unfold goaway_parse. destruct (N.ltb_spec (blen l) 8) as [L|L].
  - split; [intros [= <-]; auto|]. intros (_ & ->). reflexivity.
  - destruct (four_more l B) as (v & l1 & V & -> & B1); [lia|]. rewrite blen_app in L. change (blen (octets4 v)) with 4 in L.
    destruct (four_more l1 B1) as (c & l2 & C & -> & B2); [lia|]. unfold stream_parse. rewrite read_u31_octets by exact V. rewrite get_octets4 by exact C. cbn [bind].
    split; [discriminate|]. rewrite !blen_app. change (blen (octets4 v)) with 4. intros (K & _). rewrite ?blen_app in L. lia.
Qed.
Lemma frame_parse_err t h p L t' e ty : idx_inv t -> bytes_ok p -> fh_length h = blen p -> ty < 256 -> type_means ty (fh_kind h) ->
  (frame_parse t h p L = (t', Err e) <->
   (exists n q, p = n :: q /\ flag_on (fh_flag h) 3 /\ blen (n :: q) < n /\ e = EHttp2 (TooMuchPadding n) /\ t' = t) \/
   exists l, unpadded (fh_flag h) p l /\ frame_bad L t ty (fh_flag h) (fh_id h) l e t').
Proof.
  intros I B Len T M. destruct (P_Access.flag_bits (fh_flag h)) as (Ack & _ & _ & _ & _). unfold frame_parse. split.
  - intros H. destruct (trim_padding h p) as [l|e1| |] eqn:Tr; try discriminate H.
    2:{ left. injection H as <- <-. apply padding_err in Tr as (n & q & K); [|exact Len]. exists n, q. tauto. }
    right. pose proof (trim_bytes _ _ _ Tr B) as B1. apply unpadded_iff in Tr; [|exact Len]. exists l. split; [exact Tr|].
    assert (G : forall n, In (n, fh_kind h) frame_types -> frame_bad L t n (fh_flag h) (fh_id h) l e t' -> frame_bad L t ty (fh_flag h) (fh_id h) l e t').
    { intros n K R. rewrite (means_inj _ _ _ M K). exact R. }
    destruct (fh_kind h) eqn:K.
    + apply bind_err in H as (<- & D). unfold data_new in D. destruct (fh_id h =? 0); discriminate D.
    + apply (G 1); [cbn; auto 12|]. apply headers_err in H; assumption.
    + apply bind_err in H as (<- & X). apply (G 2); [cbn; auto 12|]. apply priority_err in X as [(S & ->)|(d & j & R & Q & -> & ->)]; [|apply xb_priority_self; assumption|exact B1]. apply xb_priority, S.
    + apply bind_err in H as (<- & X). apply (G 3); [cbn; auto 12|]. apply reset_err in X as (S & ->); [|exact B1]. apply xb_reset, S.
    + apply bind_err in H as (<- & X). apply (G 4); [cbn; auto 12|]. apply settings_parse_err in X; [|assumption..]. rewrite Ack in X.
      destruct X as [(Z & ->)|(Z & X)]; [apply xb_settings_stream, Z|]. rewrite Z.
      destruct X as [(A & N & ->)|[(A & N & ->)|(A & es & -> & R & Lg & ->)]].
      * apply xb_settings_ack; assumption.
      * apply xb_settings_length; [unfold flag_on; congruence|exact N].
      * apply xb_settings_value; [unfold flag_on; congruence|assumption..].
    + discriminate H.
    + apply bind_err in H as (<- & X). apply (G 6); [cbn; auto 12|]. rewrite ping_outcome in X by exact K.
      destruct (N.eqb_spec (fh_id h) 0) as [Z|Z]; cbn [negb] in X.
      * rewrite Z. destruct (N.eqb_spec (blen l) 8) as [E|E]; [discriminate X|]. injection X as <-. apply xb_ping, E.
      * injection X as <-. apply xb_ping_stream, Z.
    + apply bind_err in H as (<- & X). apply (G 7); [cbn; auto 12|]. apply goaway_err in X as (S & ->); [|exact B1]. apply xb_goaway, S.
    + apply bind_err in H as (<- & X). apply (G 8); [cbn; auto 12|]. apply window_err in X as [(S & ->)|(r & R & -> & ->)]; [apply xb_window, S|apply xb_window_zero, R|assumption..].
    + injection H as <- <-. apply xb_continuation. pose proof (proj1 (type_nine ty T) (or_introl M)). lia.
    + injection H as <- <-. apply xb_continuation. pose proof (proj1 (type_nine ty T) (or_intror M)). lia.
  - intros [(n & q & Ep & F & S & -> & ->)|(l & U & R)].
    { rewrite (proj2 (padding_err h p (EHttp2 (TooMuchPadding n)) Len)); [reflexivity|]. exists n, q. auto. }
    apply unpadded_iff in U; [|exact Len]. rewrite U. pose proof (trim_bytes _ _ _ U B) as B1.
    assert (Z : forall n k, In (n, k) frame_types -> ty = n -> fh_kind h = k) by (intros n k N E; subst n; exact (known_means _ _ N _ M)).
    pose proof R as R0. inversion R; subst;
       first [ assert (K : fh_kind h = KHeaders) by (apply (Z 1); [cbn; tauto|reflexivity]); rewrite K
             | assert (K : fh_kind h = KPriority) by (apply (Z 2); [cbn; tauto|reflexivity]); rewrite K; apply bind_err; split; [reflexivity|]
             | assert (K : fh_kind h = KReset) by (apply (Z 3); [cbn; tauto|reflexivity]); rewrite K; apply bind_err; split; [reflexivity|]
             | assert (K : fh_kind h = KSettings) by (apply (Z 4); [cbn; tauto|reflexivity]); rewrite K; apply bind_err; split; [reflexivity|]; apply settings_parse_err; [assumption..|rewrite Ack]
             | assert (K : fh_kind h = KPing) by (apply (Z 6); [cbn; tauto|reflexivity]); rewrite K; apply bind_err; split; [reflexivity|]; rewrite ping_outcome by assumption
             | assert (K : fh_kind h = KGoAway) by (apply (Z 7); [cbn; tauto|reflexivity]); rewrite K; apply bind_err; split; [reflexivity|]
             | assert (K : fh_kind h = KWindowUpdate) by (apply (Z 8); [cbn; tauto|reflexivity]); rewrite K; apply bind_err; split; [reflexivity|]
             | idtac ].
    + apply headers_err; assumption.
    + apply headers_err; assumption.
    + apply headers_err; assumption.
    + apply priority_err; auto.
    + apply priority_err; [exact B1|]. right. eauto 8.
    + apply reset_err; auto.
    + left. auto.
    + right. split; [congruence|]. left. auto.
    + right. split; [congruence|]. right. left. unfold flag_on in *. split; [apply not_true_is_false; assumption|auto].
    + right. split; [congruence|]. right. right. unfold flag_on in *. split; [apply not_true_is_false; assumption|]. eauto.
    + replace (fh_id h =? 0) with false by lia. reflexivity.
    + replace (fh_id h =? 0) with true by lia. cbn [negb]. replace (blen l =? 8) with false by lia. reflexivity.
    + apply goaway_err; auto.
    + apply window_err; auto.
    + apply window_err; [assumption..|]. right. eauto.
    + destruct (proj2 (type_nine ty T)) as [Q|Q]; [lia|..]; rewrite (type_means_fun _ _ _ M Q); reflexivity.
Qed.
Lemma defined_lt f : defined_flags f -> f < 256.
Proof. intros (a & b & c & d & ->). apply flags_of_lt. Qed.
Lemma recv_err_iff t L l t' e : idx_inv t -> bytes_ok l -> (recv t L l = (t', Err e) <-> refused L t l e t').
Proof.
  intros I B. unfold recv. split.
  - intros H. destruct (fh_parse l) as [[h r0]|e1| |] eqn:F; try discriminate H.
    + apply fh_parse_exact in F as (len & ty & fl & r & id & -> & Hl & Ht & D & Hr & Hi & E1 & M & E3 & E4); [|exact B].
      destruct (take_N (fh_length h) r0) as [[p rest']|] eqn:T.
      2:{ injection H as <- <-. apply take_N_none in T. apply rf_payload; [assumption..|lia|exact D|lia]. }
      apply take_N_some in T as (-> & Lp). apply bytes_app in B as [_ B]. apply bytes_app in B as [B _].
      destruct (frame_parse t h p L) as [t1 g] eqn:P. destruct g as [g|e2| |]; try discriminate H. injection H as -> ->.
      assert (E : header_octets len ty fl (r * 2147483648 + id) ++ p ++ rest' = frame_octets ty fl (r * 2147483648 + id) p ++ rest').
      { unfold frame_octets. rewrite <- app_assoc. do 2 f_equal. congruence. }
      rewrite E. apply (frame_parse_err _ _ _ _ _ _ ty) in P as [(n & q & -> & Fl & S & -> & ->)|(l & U & R)]; [| |assumption|assumption|congruence|assumption..].
      * apply rf_padding; try assumption; [lia|lia|congruence].
      * subst fl id. eapply rf_frame; try eassumption. lia.
    + injection H as <- <-. apply fh_parse_err in F as [(S & ->)|(len & ty & f & rid & rest & -> & Hl & Hr & Hf & D & ->)]; [apply rf_header, S| |exact B].
      apply rf_flags; try assumption. unfold header_octets in B. apply bytes_app in B as [B _]. apply bytes_app in B as [_ B]. apply bytes_app in B as [B _]. inversion B; assumption.
  - intros H. destruct H as [l S|n ty fl id l Hn Ht Hf Hi D|n ty fl id l Hn Ht Hi D S|ty fl id n p rest Hl Ht Hi D F S|ty fl r id p l e t' rest Hl Ht D Hr Hi U R].
    + rewrite (proj2 (fh_parse_err l B _) (or_introl (conj S eq_refl))). reflexivity.
    + rewrite fh_parse_octets by assumption. rewrite (proj2 (flag_new_none fl Hf) D). reflexivity.
    + rewrite fh_parse_octets by (assumption || apply defined_lt, D). rewrite (proj2 (flag_new_iff fl (defined_lt _ D)) D). cbn [fh_length].
      rewrite (proj2 (take_N_none n l) S). reflexivity.
    + unfold frame_octets in *. rewrite <- app_assoc in *. rewrite fh_parse_octets by (assumption || apply defined_lt, D). rewrite (proj2 (flag_new_iff fl (defined_lt _ D)) D). cbn [fh_length].
      rewrite take_N_app by reflexivity. apply bytes_app in B as [_ B]. apply bytes_app in B as [B _].
      rewrite (proj2 (frame_parse_err t (mkFH (blen (n :: p)) (kind_new ty) fl (id mod 2147483648)) (n :: p) L t (EHttp2 (TooMuchPadding n)) ty I B eq_refl Ht (kind_new_means ty))); [reflexivity|].
      left. exists n, p. auto.
    + unfold frame_octets in *. rewrite <- app_assoc in *. rewrite fh_parse_octets by (lia || apply defined_lt, D). rewrite (proj2 (flag_new_iff fl (defined_lt _ D)) D). cbn [fh_length].
      rewrite take_N_app by reflexivity. apply bytes_app in B as [_ B]. apply bytes_app in B as [B _].
      rewrite (proj2 (frame_parse_err t (mkFH (blen p) (kind_new ty) fl ((r * 2147483648 + id) mod 2147483648)) p L t' e ty I B eq_refl Ht (kind_new_means ty))); [reflexivity|].
      right. exists l. cbn [fh_flag fh_id]. split; [exact U|]. replace ((r * 2147483648 + id) mod 2147483648) with id by lia. exact R.
Qed.

(** ** What is neither accepted nor refused *)
Lemma size_update_iff b : byte_ok b -> (representation_of b = RSizeUpdate <-> 32 <= b < 64).
Proof.
  unfold byte_ok. intros B. rewrite representation_spec by exact B.
  destruct (N.leb_spec 128 b); [split; [discriminate|lia]|]. destruct (N.leb_spec 64 b); [split; [discriminate|lia]|].
  destruct (N.leb_spec 32 b); [split; [lia|reflexivity]|]. split; [destruct (16 <=? b); discriminate|lia].
Qed.
Lemma decode_block_hangs max dyn l : total_size dyn <= max -> bytes_ok l -> block_hangs max dyn l -> snd (decode_headers (idx_of max dyn) l) = Diverge.
Proof.
  intros T B H. induction H as [dyn b rest R|dyn l f d1 ls HF HB IH].
  - rewrite decode_headers_size; [reflexivity|discriminate|]. cbn [hd]. apply size_update_iff; [inversion B; assumption|exact R].
  - pose proof (field_read_inv _ _ _ _ _ T HF) as T1. apply bytes_app in B as [_ B]. specialize (IH T1 B).
    assert (I : idx_inv (idx_of max dyn)) by (apply idx_of_inv, T).
    pose proof (decode_one_read (idx_of max dyn) l f d1 ls I HF) as E. cbn [hi_max idx_of] in E.
    rewrite (decode_headers_field (idx_of max dyn) (l ++ ls) (idx_of max d1) f (blen l) I); [|destruct (field_read_head _ _ _ _ _ HF) as (x & l' & -> & _); discriminate|exact E].
    rewrite skipn_blen. destruct (decode_headers _ ls) as [t2 r2]. cbn [snd] in *. rewrite IH. reflexivity.
Qed.
Lemma decode_block_diverge t l : idx_inv t -> bytes_ok l -> snd (decode_headers t l) = Diverge -> block_hangs (hi_max t) (hi_table t) l.
Proof.
  intros I. revert t l I. apply (decode_headers_ind (fun t l => bytes_ok l -> snd (decode_headers t l) = Diverge -> block_hangs (hi_max t) (hi_table t) l)).
  - intros t I B H. rewrite decode_headers_nil in H. discriminate H.
  - intros t buf t1 f k I I1 M NE K1 K2 E IH B H. rewrite (decode_headers_field t buf t1 f k I NE E) in H.
    destruct (decode_one_exact t buf t1 f k I B NE E) as (l & rest & d' & -> & HF & -> & ->). rewrite skipn_blen in *. apply bytes_app in B as [_ B].
    specialize (IH B). destruct (decode_headers _ rest) as [t2 [fs2|e2| |]] eqn:E2; cbn [bind snd] in *; try discriminate H.
    eapply bh_later; [exact HF|]. apply IH. reflexivity.
  - intros t buf I NE R B H. destruct buf as [|b buf]; [contradiction|]. apply bh_here. apply size_update_iff; [inversion B; assumption|exact R].
  - intros t buf e I NE E _ B H. rewrite (decode_headers_err t buf e NE E) in H. discriminate H.
Qed.
Lemma hangs_iff t l : idx_inv t -> bytes_ok l -> (snd (decode_headers t l) = Diverge <-> block_hangs (hi_max t) (hi_table t) l).
Proof.
  intros I B. split; [apply decode_block_diverge; assumption|]. intros H. destruct (inv_idx_of t I) as [Et Ts]. rewrite Et. apply decode_block_hangs; assumption.
Qed.
Lemma hdr_collect_returns L fs : forall s h, snd (hdr_collect L s h fs) <> Panic /\ snd (hdr_collect L s h fs) <> Diverge.
Proof.
  induction fs as [|f fs IH]; intros s h; cbn [hdr_collect]; [split; discriminate|]. destruct (L <? _); [split; discriminate|]. unfold try_.
  destruct (hdr_field_outcome h f) as [(_ & h1 & E)|(e1 & _ & E)]; rewrite E; [apply IH|split; discriminate].
Qed.
Lemma decode_no_panic t l : idx_inv t -> bytes_ok l -> snd (decode_headers t l) <> Panic.
Proof.
  intros I. revert t l I. apply (decode_headers_ind (fun t l => bytes_ok l -> snd (decode_headers t l) <> Panic)).
  - intros t I B H. rewrite decode_headers_nil in H. discriminate H.
  - intros t buf t1 f k I I1 M NE K1 K2 E IH B H. rewrite (decode_headers_field t buf t1 f k I NE E) in H.
    destruct (decode_one_exact t buf t1 f k I B NE E) as (l & rest & d' & -> & HF & -> & ->). rewrite skipn_blen in *. apply bytes_app in B as [_ B].
    specialize (IH B). destruct (decode_headers _ rest) as [t2 [fs2|e2| |]] eqn:E2; cbn [bind snd] in *; try discriminate H. apply IH. reflexivity.
  - intros t buf I NE R B H. rewrite decode_headers_size in H by assumption. discriminate H.
  - intros t buf e I NE E _ B H. rewrite (decode_headers_err t buf e NE E) in H. discriminate H.
Qed.
Lemma settings_returns h l : fh_kind h = KSettings -> bytes_ok l -> settings_parse h l <> Panic /\ settings_parse h l <> Diverge.
Proof.
  intros K B. unfold settings_parse. rewrite K. change (kind_eqb KSettings KSettings) with true. cbn [negb].
  destruct (fh_id h =? 0); [cbn [negb]|split; discriminate]. destruct (is_ack (fh_flag h)); [destruct l; split; discriminate|].
  unfold parse_setting. destruct (N.eqb_spec (blen l mod 6) 0) as [M|M]; [cbn [negb]|split; discriminate].
  pose proof (parse_setting_entries) as X. destruct (entries_split (N.to_nat (blen l / 6)) l B) as (es & -> & R & _); [clear - M; lia|].
  specialize (X es R). unfold parse_setting in X. rewrite M in X. change (0 =? 0) with true in X. cbn [negb] in X. rewrite X.
  destruct (forallb entry_legalb es); split; discriminate.
Qed.
Lemma bind_other {A B} (r : res A) (g : A -> B) : ((x <- r ;; Ok (g x)) = Panic <-> r = Panic) /\ ((x <- r ;; Ok (g x)) = Diverge <-> r = Diverge).
Proof. destruct r; cbn [bind]; repeat split; congruence. Qed.
(** The outcome of one frame. *)
Definition other_kind (k : kind) : Prop := k <> KData /\ k <> KHeaders.
Lemma trim_returns h p : trim_padding h p <> Panic /\ trim_padding h p <> Diverge.
Proof. unfold trim_padding. destruct (is_padded (fh_flag h)); [|split; discriminate]. destruct p as [|n r]; [split; discriminate|]. destruct (_ <? n); split; discriminate. Qed.
Lemma frame_other t h p L : bytes_ok p -> other_kind (fh_kind h) -> snd (frame_parse t h p L) <> Panic /\ snd (frame_parse t h p L) <> Diverge.
Proof.
  intros B [N1 N2]. unfold frame_parse. pose proof (trim_returns h p) as [T1 T2]. destruct (trim_padding h p) as [l|e| |] eqn:Tr; [|split; discriminate|contradiction..].
  pose proof (trim_bytes _ _ _ Tr B) as B1.
  destruct (fh_kind h) eqn:K; try contradiction; try (split; discriminate); cbn [snd];
    match goal with |- (x <- ?r ;; Ok (?g x)) <> _ /\ _ => destruct (bind_other r g) as [X1 X2]; rewrite X1, X2; clear X1 X2 end.
  - unfold priority_parse. destruct (N.ltb_spec (blen l) 5) as [S|S]; [rewrite dep_load_short by exact S; split; discriminate|].
    destruct (dep_load_long l B1 S) as (d & r & D). rewrite D. cbn [bind]. destruct (dp_id d =? fh_id h); split; discriminate.
  - destruct (reset_exact h l B1) as (X1 & X2). destruct (N.eq_dec (blen l) 4) as [S|S]; [|rewrite X2 by exact S; split; discriminate].
    destruct (four l B1 S) as (v & V & E). rewrite (proj2 (X1 (mkReset (fh_id h) v))) by eauto. split; discriminate.
  - apply settings_returns; assumption.
  - rewrite ping_outcome by exact K. destruct (fh_id h =? 0); [|split; discriminate]. destruct (blen l =? 8); split; discriminate.
  - unfold goaway_parse. destruct (N.ltb_spec (blen l) 8) as [S|S]; [split; discriminate|].
    destruct (four_more l B1) as (v & l1 & V & -> & B2); [lia|]. rewrite blen_app in S. change (blen (octets4 v)) with 4 in S.
    destruct (four_more l1 B2) as (c & l2 & C & -> & _); [lia|]. unfold stream_parse. rewrite read_u31_octets by exact V. rewrite get_octets4 by exact C. split; discriminate.
  - destruct (winupd_exact h l K B1) as (X1 & X2 & X3). destruct (N.eq_dec (blen l) 4) as [S|S]; [|rewrite X2 by exact S; split; discriminate].
    destruct (four l B1 S) as (v & V & E). destruct (N.eq_dec (v mod 2147483648) 0) as [Z|Z].
    + rewrite (X3 (v / 2147483648)); [split; discriminate|lia|rewrite E; f_equal; lia].
    + rewrite (proj2 (X1 (mkWin (fh_id h) (v mod 2147483648)))); [split; discriminate|]. exists (v / 2147483648), (v mod 2147483648).
      split; [lia|]. split; [lia|]. split; [rewrite E; f_equal; lia|reflexivity].
Qed.
Lemma headers_other t h l L : idx_inv t -> bytes_ok l ->
  let r := snd (let '(t1, hf, r) := headers_parse t (headers_new h []) l L in (t1, u <- r ;; Ok (FHeaders hf))) in
  r <> Panic /\ (r = Diverge <->
    ~ flag_on (fh_flag h) 5 /\ block_hangs (hi_max t) (hi_table t) l \/
    flag_on (fh_flag h) 5 /\ exists d b, dep_range d /\ l = dep_octets d ++ b /\ block_hangs (hi_max t) (hi_table t) b).
Proof.
  intros I B. destruct (P_Access.flag_bits (fh_flag h)) as (_ & _ & _ & _ & P). unfold headers_parse, headers_new. cbn [hf_flags]. rewrite P. unfold flag_on.
  assert (X : forall h1 l1, bytes_ok l1 -> let r := snd (let '(t1, hf, r) :=
       (let '(t1, r) := decode_headers t l1 in
        match r with
        | Ok fs => let '(h2, c) := hdr_collect L 0 h1 fs in (t1, h2, u <- c ;; Ok (blen l1))
        | Err e => (t1, h1, Err e)
        | Panic => (t1, h1, Panic)
        | Diverge => (t1, h1, Diverge)
        end) in (t1, u <- r ;; Ok (FHeaders hf))) in r <> Panic /\ (r = Diverge <-> block_hangs (hi_max t) (hi_table t) l1)).
  { intros h1 l1 B1. cbv zeta. rewrite <- (hangs_iff t l1 I B1). pose proof (decode_no_panic t l1 I B1) as NP. destruct (decode_headers t l1) as [t1 r] eqn:E. cbn [snd] in *. destruct r as [fs|e1| |]; cbn [bind snd].
    - pose proof (hdr_collect_returns L fs 0 h1) as [R1 R2]. destruct (hdr_collect L 0 h1 fs) as [h2 [u|e2| |]]; cbn [bind snd] in *; try contradiction; repeat split; discriminate.
    - repeat split; discriminate.
    - contradiction.
    - repeat split; discriminate. }
  cbv zeta in *. destruct (N.testbit (fh_flag h) 5) eqn:T.
  - destruct (N.ltb_spec (blen l) 5) as [S|S].
    + rewrite dep_load_short by exact S. cbn [bind snd]. split; [discriminate|]. split; [discriminate|].
      intros [(K & _)|(_ & d & b & R & -> & _)]; [congruence|]. unfold dep_octets in S. rewrite !blen_app in S. change (blen (octets4 _)) with 4 in S. change (blen [_]) with 1 in S. lia.
    + destruct (dep_load_long l B S) as (d & r & D). rewrite D. pose proof D as D'. apply dep_load_iff in D' as (R & El); [|exact B].
      assert (B2 : bytes_ok r) by (rewrite El in B; apply bytes_app in B as [_ B]; exact B). cbn [bind].
      destruct (X (hf_set_dep (mkHeaders (fh_id h) None [] parts_default (fh_flag h)) (Some d)) r B2) as [X1 X2]. split; [exact X1|]. rewrite X2. split.
      * intros H. right. split; [reflexivity|]. eauto.
      * intros [(K & _)|(_ & d' & b & R' & E' & H)]; [congruence|]. rewrite (proj2 (dep_load_iff l d' b B) (conj R' E')) in D. injection D as <- <-. exact H.
  - destruct (X (mkHeaders (fh_id h) None [] parts_default (fh_flag h)) l B) as [X1 X2]. split; [exact X1|]. rewrite X2. split.
    + intros H. left. split; [discriminate|exact H].
    + intros [(_ & H)|(K & _)]; [exact H|congruence].
Qed.
Lemma recv_panic_iff t L l : idx_inv t -> bytes_ok l -> (snd (recv t L l) = Panic <-> crashes l).
Proof.
  intros I B. unfold recv. split.
  - intros H. destruct (fh_parse l) as [[h r0]|e1| |] eqn:F; try discriminate H.
    2:{ destruct (fh_parse_total l). contradiction. }
    apply fh_parse_exact in F as (len & ty & fl & r & id & -> & Hl & Ht & D & Hr & Hi & E1 & M & E3 & E4); [|exact B].
    destruct (take_N (fh_length h) r0) as [[p rest']|] eqn:T; [|discriminate H].
    apply take_N_some in T as (-> & Lp). apply bytes_app in B as [_ B]. apply bytes_app in B as [B _].
    assert (Q : snd (frame_parse t h p L) = Panic) by (destruct (frame_parse t h p L) as [t1 [g|e2| |]]; try discriminate H; reflexivity). clear H.
    unfold frame_parse in Q. destruct (trim_padding h p) as [q|e2| |] eqn:Tr; try discriminate Q; [|destruct (trim_returns h p); contradiction].
    pose proof (trim_bytes _ _ _ Tr B) as B1.
    destruct (fh_kind h) eqn:K;
      try (exfalso; apply (proj1 (frame_other t h p L B ltac:(rewrite K; split; discriminate))); unfold frame_parse; rewrite Tr, K; exact Q).
    + cbn [snd] in Q. unfold data_new in Q. destruct (N.eqb_spec (fh_id h) 0) as [Z|Z]; [|discriminate Q].
      try rewrite K in M. assert (ty = 0) as -> by (apply (means_inj _ _ _ M); cbn; auto). subst id fl. rewrite Z, N.add_0_r.
      apply unpadded_iff in Tr; [|congruence].
      replace (header_octets len 0 (fh_flag h) (r * 2147483648) ++ p ++ rest') with (frame_octets 0 (fh_flag h) (r * 2147483648) p ++ rest').
      * eapply cr_data; try eassumption. lia.
      * unfold frame_octets. rewrite <- app_assoc. do 2 f_equal. congruence.
    + exfalso. destruct (headers_other t h q L I B1) as [X _]. cbv zeta in X. contradiction.
  - intros [fl r p q rest Hl D Hr U]. unfold frame_octets in *. rewrite <- app_assoc in *.
    rewrite fh_parse_octets by (lia || apply defined_lt, D). rewrite (proj2 (flag_new_iff fl (defined_lt _ D)) D). cbn [fh_length].
    rewrite take_N_app by reflexivity. unfold frame_parse.
    rewrite (proj2 (unpadded_iff (mkFH (blen p) (kind_new 0) fl ((r * 2147483648) mod 2147483648)) p q eq_refl) U). cbn [fh_kind kind_new]. change (kind_new 0) with KData. cbv iota.
    unfold data_new. cbn [fh_id]. replace ((r * 2147483648) mod 2147483648 =? 0) with true by lia. reflexivity.
Qed.
Lemma recv_diverge_iff t L l : idx_inv t -> bytes_ok l -> (snd (recv t L l) = Diverge <-> hangs t l).
Proof.
  intros I B. unfold recv. split.
  - intros H. destruct (fh_parse l) as [[h r0]|e1| |] eqn:F; try discriminate H.
    2:{ destruct (fh_parse_total l). contradiction. }
    apply fh_parse_exact in F as (len & ty & fl & r & id & -> & Hl & Ht & D & Hr & Hi & E1 & M & E3 & E4); [|exact B].
    destruct (take_N (fh_length h) r0) as [[p rest']|] eqn:T; [|discriminate H].
    apply take_N_some in T as (-> & Lp). apply bytes_app in B as [_ B]. apply bytes_app in B as [B _].
    assert (Q : snd (frame_parse t h p L) = Diverge) by (destruct (frame_parse t h p L) as [t1 [g|e2| |]]; try discriminate H; reflexivity). clear H.
    unfold frame_parse in Q. destruct (trim_padding h p) as [q|e2| |] eqn:Tr; try discriminate Q; [|destruct (trim_returns h p); contradiction].
    pose proof (trim_bytes _ _ _ Tr B) as B1.
    destruct (fh_kind h) eqn:K;
      try (exfalso; apply (proj2 (frame_other t h p L B ltac:(rewrite K; split; discriminate))); unfold frame_parse; rewrite Tr, K; exact Q).
    + exfalso. cbn [snd] in Q. unfold data_new in Q. destruct (fh_id h =? 0); discriminate Q.
    + destruct (headers_other t h q L I B1) as [_ X]. cbv zeta in X. apply X in Q. clear X.
      try rewrite K in M. assert (ty = 1) as -> by (apply (means_inj _ _ _ M); cbn; auto). subst id fl.
      apply unpadded_iff in Tr; [|congruence].
      replace (header_octets len 1 (fh_flag h) (r * 2147483648 + fh_id h) ++ p ++ rest') with (frame_octets 1 (fh_flag h) (r * 2147483648 + fh_id h) p ++ rest')
        by (unfold frame_octets; rewrite <- app_assoc; do 2 f_equal; congruence).
      destruct Q as [(N & Q)|(N & d & b & R & -> & Q)]; [eapply hg_headers|eapply hg_headers_prio]; try eassumption; lia.
  - assert (G : forall fl r id p q rest, bytes_ok (frame_octets 1 fl (r * 2147483648 + id) p ++ rest) -> blen p < 16777216 -> defined_flags fl -> r <= 1 -> id < 2147483648 -> unpadded fl p q ->
      (~ flag_on fl 5 /\ block_hangs (hi_max t) (hi_table t) q \/ flag_on fl 5 /\ exists d b, dep_range d /\ q = dep_octets d ++ b /\ block_hangs (hi_max t) (hi_table t) b) ->
      snd (recv t L (frame_octets 1 fl (r * 2147483648 + id) p ++ rest)) = Diverge).
    { intros fl r id p q rest B0 Hl D Hr Hi U Q. unfold recv, frame_octets in *. rewrite <- app_assoc in *.
      rewrite fh_parse_octets by (lia || apply defined_lt, D). rewrite (proj2 (flag_new_iff fl (defined_lt _ D)) D). cbn [fh_length].
      rewrite take_N_app by reflexivity. apply bytes_app in B0 as [_ B0]. apply bytes_app in B0 as [B0 _]. set (h := mkFH (blen p) (kind_new 1) fl ((r * 2147483648 + id) mod 2147483648)).
      pose proof (proj2 (unpadded_iff h p q eq_refl) U) as Tr. pose proof (trim_bytes _ _ _ Tr B0) as B1.
      destruct (headers_other t h q L I B1) as [_ X]. cbv zeta in X. apply X in Q. unfold frame_parse. rewrite Tr. change (fh_kind h) with KHeaders. cbv iota.
      destruct (let '(t1, hf, r1) := headers_parse t (headers_new h []) q L in (t1, u <- r1 ;; Ok (FHeaders hf))) as [t1 r1]. cbn [snd] in Q. subst r1. reflexivity. }
    intros H. change (snd (recv t L l) = Diverge). destruct H as [fl r id p q rest Hl D Hr Hi U N Q|fl r id p d b rest Hl D Hr Hi U N R Q]; eapply G; try eassumption; [left; auto|right; eauto 8].
Qed.

(** ** Consequences *)
Lemma int_bad_not_short p fl l e : int_bad p fl l e -> e <> EHttp2 Short.
Proof. intros [ | ]; discriminate. Qed.
Lemma str_bad_not_short l e : str_bad l e -> e <> EHttp2 Short.
Proof. intros [|fl l0 e0 _ H| | ]; try discriminate. exact (int_bad_not_short _ _ _ _ H). Qed.
Lemma field_bad_not_short dyn l e : field_bad dyn l e -> e <> EHttp2 Short.
Proof.
  intros [i rest _ _|p fl l0 e0 _ H|p fl i l0 rest _ _ _ _ _|p fl l0 e0 _ H|p fl i l0 f r e0 _ _ _ _ H|p fl ln n r e0 _ _ H]; try discriminate.
  - exact (int_bad_not_short _ _ _ _ H).
  - exact (str_bad_not_short _ _ H).
  - exact (str_bad_not_short _ _ H).
  - exact (str_bad_not_short _ _ H).
Qed.
Lemma block_bad_not_short max dyn l e dyn' : block_bad max dyn l e dyn' -> e <> EHttp2 Short.
Proof. intros H. induction H as [dyn l e F|]; [exact (field_bad_not_short _ _ _ F)|assumption]. Qed.
Lemma headers_bad_not_short L t l e t' : headers_bad L t l e t' -> e <> EHttp2 Short.
Proof.
  intros [e0 dyn H|fs dyn e0 _ H]; [exact (block_bad_not_short _ _ _ _ _ H)|].
  destruct H as [a f b _ _ _ _|a f b e0 _ _ _ V]; [discriminate|]. destruct V; discriminate.
Qed.
Lemma frame_bad_not_short L t ty fl id l e t' : frame_bad L t ty fl id l e t' -> e <> EHttp2 Short.
Proof.
  intros H. destruct H as [fl id l e t' _ H|fl id d l e t' _ _ H| | | | | | | | | | | | | | ]; try discriminate; exact (headers_bad_not_short _ _ _ _ _ H).
Qed.
Lemma short_inv L t l t' : refused L t l (EHttp2 Short) t' ->
  blen l < 9 \/ exists n ty fl id p, l = header_octets n ty fl id ++ p /\ n < 16777216 /\ ty < 256 /\ id < 4294967296 /\ defined_flags fl /\ blen p < n.
Proof.
  intros H. remember (EHttp2 Short) as e eqn:E.
  destruct H as [l S|n ty fl id l Hn Ht Hf Hi D|n ty fl id l Hn Ht Hi D S|ty fl id n p rest Hl Ht Hi D F S|ty fl r id p l e t' rest Hl Ht D Hr Hi U R]; try discriminate E.
  - auto.
  - right. exists n, ty, fl, id, l. auto 8.
  - destruct (frame_bad_not_short _ _ _ _ _ _ _ _ R E).
Qed.
Lemma refused_more L t l e t' more : refused L t l e t' -> e <> EHttp2 Short -> refused L t (l ++ more) e t'.
Proof.
  intros [l0 S|n ty fl id l0 Hn Ht Hf Hi D|n ty fl id l0 Hn Ht Hi D S|ty fl id n p rest Hl Ht Hi D F S|ty fl r id p l0 e0 t0 rest Hl Ht D Hr Hi U R] N; try contradiction; rewrite <- app_assoc.
  - apply rf_flags; assumption.
  - apply rf_padding; assumption.
  - eapply rf_frame; eassumption.
Qed.
Lemma bytes_app_ok a b : bytes_ok a -> bytes_ok b -> bytes_ok (a ++ b).
Proof. intros A B. apply Forall_app. auto. Qed.
Lemma table_inv L t l e t' : refused L t l e t' -> t' <> t ->
  exists fl r id p q rest, l = frame_octets 1 fl (r * 2147483648 + id) p ++ rest /\ unpadded fl p q /\
    exists block, (q = block \/ exists d, dep_range d /\ q = dep_octets d ++ block) /\ headers_bad L t block e t'.
Proof.
  intros [l0 S|n ty fl id l0 Hn Ht Hf Hi D|n ty fl id l0 Hn Ht Hi D S|ty fl id n p rest Hl Ht Hi D F S|ty fl r id p l0 e0 t0 rest Hl Ht D Hr Hi U R] N; try contradiction.
  destruct R as [fl id l0 e0 t1 _ H|fl id d l0 e0 t1 _ R H| | | | | | | | | | | | | | ]; try contradiction; exists fl, r, id, p; eexists; exists rest; (split; [reflexivity|]; split; [exact U|]; exists l0; split; [|exact H]); eauto.
Qed.
