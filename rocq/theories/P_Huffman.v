(** Lemmas about the Huffman coder. *)
From Coq Require Import NArith ZArith Lia Bool List ZifyBool ZifyNat ZifyN.
From Verif Require Import Base P_Base M_Huffman S_Huffman.
Import ListNotations.
Local Open Scope N_scope.
Ltac Zify.zify_post_hook ::= Z.div_mod_to_equations.

(** ** Bits *)
Lemma num_bits_ext n u v :
  (forall i, i < N.of_nat n -> N.testbit u i = N.testbit v i) -> num_bits n u = num_bits n v.
Proof.
  induction n as [|n IH]; intros H; cbn [num_bits]; [reflexivity|].
  rewrite H by lia. rewrite IH; [reflexivity|]. intros i Hi. apply H. lia.
Qed.

Lemma num_bits_length n v : length (num_bits n v) = n.
Proof. induction n; cbn [num_bits length]; auto. Qed.

Lemma num_bits_mod n v k : N.of_nat n <= k -> num_bits n (v mod 2 ^ k) = num_bits n v.
Proof. intros H. apply num_bits_ext. intros i Hi. apply N.mod_pow2_bits_low. lia. Qed.

(** The upper and the lower part. *)
Lemma num_bits_split a b v : num_bits (a + b) v = num_bits a (v / 2 ^ N.of_nat b) ++ num_bits b v.
Proof.
  induction a as [|a IH]; cbn [num_bits Nat.add app]; [reflexivity|].
  rewrite N.div_pow2_bits, IH. f_equal. f_equal. lia.
Qed.

Lemma num_bits_app a b x y : y < 2 ^ N.of_nat b ->
  num_bits (a + b) (x * 2 ^ N.of_nat b + y) = num_bits a x ++ num_bits b y.
Proof.
  intros H. assert (P : 2 ^ N.of_nat b <> 0) by (apply N.pow_nonzero; lia).
  rewrite num_bits_split. f_equal.
  - f_equal. rewrite N.div_add_l by exact P. rewrite N.div_small by exact H. lia.
  - rewrite <- (num_bits_mod b _ (N.of_nat b)) by lia.
    f_equal. rewrite N.add_comm, N.mod_add by exact P. apply N.mod_small, H.
Qed.

Lemma bit_eq x y : x < 2 -> y < 2 -> (x =? 1) = (y =? 1) -> x = y.
Proof. lia. Qed.

Lemma num_bits_inj n u v : u < 2 ^ N.of_nat n -> v < 2 ^ N.of_nat n -> num_bits n u = num_bits n v -> u = v.
Proof.
  revert u v. induction n as [|n IH]; intros u v Hu Hv E.
  - change (2 ^ N.of_nat 0) with 1 in *. lia.
  - cbn [num_bits] in E. injection E as E1 E2.
    rewrite <- (num_bits_mod n u (N.of_nat n)), <- (num_bits_mod n v (N.of_nat n)) in E2 by lia.
    assert (P : 2 ^ N.of_nat n <> 0) by (apply N.pow_nonzero; lia).
    apply IH in E2; try (apply N.mod_lt; exact P).
    rewrite !N.testbit_eqb in E1.
    replace (N.of_nat (S n)) with (N.succ (N.of_nat n)) in * by lia.
    rewrite N.pow_succ_r' in *.
    rewrite (N.div_mod u (2 ^ N.of_nat n)), (N.div_mod v (2 ^ N.of_nat n)) by exact P.
    rewrite E2. f_equal. f_equal.
    assert (A : u / 2 ^ N.of_nat n < 2) by (apply N.div_lt_upper_bound; [exact P|rewrite N.mul_comm; assumption]).
    assert (B : v / 2 ^ N.of_nat n < 2) by (apply N.div_lt_upper_bound; [exact P|rewrite N.mul_comm; assumption]).
    rewrite (N.mod_small _ _ A), (N.mod_small _ _ B) in E1.
    exact (bit_eq _ _ A B E1).
Qed.

Lemma num_bits_ones n : num_bits n (2 ^ N.of_nat n - 1) = repeat true n.
Proof.
  rewrite <- N.pred_sub, <- N.ones_equiv.
  assert (G : forall m k, N.of_nat m <= k -> num_bits m (N.ones k) = repeat true m).
  { induction m as [|m IH]; intros k Hk; cbn [num_bits repeat]; [reflexivity|].
    rewrite N.ones_spec_low by lia. rewrite IH by lia. reflexivity. }
  apply G. lia.
Qed.

Lemma text_bits_app a b : text_bits (a ++ b) = text_bits a ++ text_bits b.
Proof. unfold text_bits. apply flat_map_app. Qed.

Lemma text_bits_length l : length (text_bits l) = (8 * length l)%nat.
Proof.
  induction l as [|x l IH]; [reflexivity|].
  unfold text_bits in *. cbn [flat_map]. rewrite app_length, num_bits_length, IH. cbn [length]. lia.
Qed.

Lemma app_inj_length {A} (a b c d : list A) : length a = length b -> a ++ c = b ++ d -> a = b /\ c = d.
Proof.
  revert b. induction a as [|x a IH]; intros [|y b] L E; try discriminate L; [auto|].
  cbn [app length] in *. injection L as L. injection E as -> E.
  destruct (IH _ L E) as [-> ->]. auto.
Qed.

Lemma text_bits_inj a b : bytes_ok a -> bytes_ok b -> text_bits a = text_bits b -> a = b.
Proof.
  revert b. induction a as [|x a IH]; intros [|y b] Ha Hb E; try discriminate E; [reflexivity|].
  unfold text_bits in E. cbn [flat_map] in E.
  apply app_inj_length in E; [|rewrite !num_bits_length; reflexivity].
  destruct E as [E1 E2].
  apply bytes_ok_cons in Ha. apply bytes_ok_cons in Hb.
  apply num_bits_inj in E1; try (change (2 ^ N.of_nat 8) with 256; tauto).
  subst y. f_equal. apply IH; tauto.
Qed.

Lemma byte_bits_num b : byte_bits b = num_bits 8 b.
Proof. reflexivity. Qed.

Lemma bit_iter_text l : bit_iter l = text_bits l.
Proof. reflexivity. Qed.

(** ** The table *)
Definition symbols : list N := map N.of_nat (seq 0 257).
Lemma symbols_in s : s <= 256 -> In s symbols.
Proof. intros H. unfold symbols. apply in_map_iff. exists (N.to_nat s). split; [lia|]. apply in_seq. lia. Qed.
Lemma symbol_sweep (f : N -> bool) : forallb f symbols = true -> forall s, s <= 256 -> f s = true.
Proof. intros H s Hs. rewrite forallb_forall in H. apply H, symbols_in, Hs. Qed.
Lemma symbol_sweep2 (f : N -> N -> bool) :
  forallb (fun s => forallb (f s) symbols) symbols = true -> forall s t, s <= 256 -> t <= 256 -> f s t = true.
Proof.
  intros H s t Hs Ht. apply (symbol_sweep (f s)); [|exact Ht].
  apply (symbol_sweep (fun s => forallb (f s) symbols)); assumption.
Qed.

Fixpoint bits_eqb (a b : list bool) : bool :=
  match a, b with
  | [], [] => true
  | x :: a', y :: b' => Bool.eqb x y && bits_eqb a' b'
  | _, _ => false
  end.
Lemma bits_eqb_eq a b : bits_eqb a b = true -> a = b.
Proof.
  revert b. induction a as [|x a IH]; intros [|y b] H; try discriminate H; [reflexivity|].
  cbn [bits_eqb] in H. apply andb_true_iff in H. destruct H as [H1 H2].
  apply Bool.eqb_prop in H1. apply IH in H2. subst. reflexivity.
Qed.

Definition table_okb (s : N) : bool :=
  let '(c, n) := nth (N.to_nat s) HUFFMAN_CODE_ARRAY (0, 0) in
  (5 <=? n) && (n <=? 30) && (c <? 2 ^ n) && bits_eqb (num_bits (N.to_nat n) c) (huff_word s).

Lemma table_ok s : s <= 256 -> exists c n, nth (N.to_nat s) HUFFMAN_CODE_ARRAY (0, 0) = (c, n) /\
  5 <= n /\ n <= 30 /\ c < 2 ^ n /\ huff_word s = num_bits (N.to_nat n) c.
Proof.
  intros H. assert (T : table_okb s = true).
  { revert s H. apply symbol_sweep. vm_compute. reflexivity. }
  unfold table_okb in T. destruct (nth (N.to_nat s) HUFFMAN_CODE_ARRAY (0, 0)) as [c n].
  exists c, n. rewrite !andb_true_iff in T. destruct T as [[[T1 T2] T3] T4].
  apply bits_eqb_eq in T4.
  split; [reflexivity|]. split; [lia|]. split; [lia|]. split; [lia|]. symmetry. exact T4.
Qed.

Lemma huff_word_length s : s <= 256 -> (5 <= length (huff_word s) <= 30)%nat.
Proof.
  intros H. destruct (table_ok s H) as (c & n & _ & H1 & H2 & _ & ->). rewrite num_bits_length. lia.
Qed.

(** ** The encoder *)
Definition hinv (bs : list bool) (st : N * N * bytes) : Prop :=
  let '(bits, room, out) := st in
  33 <= room /\ room <= 40 /\ bytes_ok out /\
  exists w, w < 2 ^ (64 - room) /\ bits = w * 2 ^ room /\
    text_bits out ++ num_bits (N.to_nat (40 - room)) w = bs.

Lemma land_mul_pow2 w k y : y < 2 ^ k -> N.land (w * 2 ^ k) y = 0.
Proof.
  intros H. apply N.bits_inj. intros i. rewrite N.land_spec, N.bits_0.
  destruct (N.ltb_spec i k) as [L|L].
  - rewrite N.mul_pow2_bits_low by exact L. reflexivity.
  - assert (E : N.testbit y i = false).
    { destruct (N.eq_dec y 0) as [->|Z]; [apply N.bits_0|].
      apply N.bits_above_log2. apply N.log2_lt_pow2; [lia|].
      eapply N.lt_le_trans; [exact H|]. apply N.pow_le_mono_r; lia. }
    rewrite E. apply andb_false_r.
Qed.

Lemma lor_mul_pow2 w k y : y < 2 ^ k -> N.lor (w * 2 ^ k) y = w * 2 ^ k + y.
Proof.
  intros H. pose proof (land_mul_pow2 w k y H) as L.
  rewrite N.add_nocarry_lxor by exact L. symmetry. apply N.lxor_lor, L.
Qed.

Lemma pow2_split a b : 2 ^ (a + b) = 2 ^ a * 2 ^ b.
Proof. apply N.pow_add_r. Qed.
Lemma pow2_pos a : 0 < 2 ^ a.
Proof. assert (2 ^ a <> 0) by (apply N.pow_nonzero; lia). lia. Qed.

(** One round of the flush loop. *)
Lemma hflush_ok fuel : forall w room out bs,
  room <= 40 -> 32 < room + 8 * N.of_nat fuel ->
  w < 2 ^ (64 - room) -> bytes_ok out ->
  text_bits out ++ num_bits (N.to_nat (40 - room)) w = bs ->
  hinv bs (hflush fuel (w * 2 ^ room) room out).
Proof.
  induction fuel as [|f IH]; intros w room out bs H1 H2 H3 H4 H5; cbn [hflush].
  - unfold hinv. split; [lia|]. split; [lia|]. split; [exact H4|]. exists w. auto.
  - destruct (N.leb_spec room 32) as [L|L].
    + rewrite N.shiftl_mul_pow2, N.shiftr_div_pow2.
      assert (E1 : w * 2 ^ room * 2 ^ 8 mod 2 ^ 64 = (w mod 2 ^ (56 - room)) * 2 ^ (room + 8)).
      { rewrite <- N.mul_assoc, <- pow2_split.
        assert (Q : 2 ^ 64 = 2 ^ (56 - room) * 2 ^ (room + 8)) by (rewrite <- pow2_split; f_equal; clear -L; lia).
        rewrite Q. apply N.mul_mod_distr_r; apply N.pow_nonzero; lia. }
      rewrite E1.
      assert (E2 : w * 2 ^ room / 2 ^ 32 = w / 2 ^ (32 - room)).
      { assert (Q : 2 ^ 32 = 2 ^ (32 - room) * 2 ^ room) by (rewrite <- pow2_split; f_equal; clear -L; lia).
        rewrite Q. apply N.div_mul_cancel_r; apply N.pow_nonzero; lia. }
      rewrite E2.
      apply IH.
      * clear -L. lia.
      * clear -H2. lia.
      * replace (64 - (room + 8)) with (56 - room) by (clear; lia). apply N.mod_lt. apply N.pow_nonzero. lia.
      * apply bytes_ok_app. split; [exact H4|]. apply bytes_ok_cons. split; [|apply bytes_ok_nil].
        apply N.mod_lt. lia.
      * rewrite num_bits_mod by (clear -L; lia).
        rewrite <- H5. rewrite text_bits_app, <- app_assoc. f_equal.
        unfold text_bits. cbn [flat_map]. rewrite app_nil_r.
        change 256 with (2 ^ 8). rewrite num_bits_mod by (clear; lia).
        replace (N.to_nat (40 - room)) with (8 + N.to_nat (40 - (room + 8)))%nat by (clear -L; lia).
        rewrite num_bits_split. f_equal. f_equal. f_equal. f_equal. clear -L. lia.
    + unfold hinv. split; [lia|]. split; [lia|]. split; [exact H4|]. exists w. auto.
Qed.

Lemma hput_ok bs st b : b < 256 -> hinv bs st ->
  exists st', hput st b = Ok st' /\ hinv (bs ++ huff_word b) st'.
Proof.
  destruct st as [[bits room] out]. intros Hb (H1 & H2 & H3 & w & H4 & H5 & H6).
  destruct (table_ok b ltac:(lia)) as (c & n & E & N1 & N2 & N3 & W).
  unfold hput. rewrite E.
  destruct (N.ltb_spec room n) as [L|L]; [lia|].
  eexists. split; [reflexivity|].
  rewrite N.shiftl_mul_pow2.
  assert (C : c * 2 ^ (room - n) < 2 ^ room).
  { replace room with (n + (room - n)) at 2 by lia. rewrite pow2_split.
    apply N.mul_lt_mono_pos_r; [apply pow2_pos|exact N3]. }
  assert (R : 2 ^ room <= 2 ^ 64) by (apply N.pow_le_mono_r; lia).
  rewrite N.mod_small by lia.
  rewrite H5, lor_mul_pow2 by exact C.
  assert (E3 : w * 2 ^ room + c * 2 ^ (room - n) = (w * 2 ^ n + c) * 2 ^ (room - n)).
  { replace room with (n + (room - n)) at 1 by lia. rewrite pow2_split. ring. }
  rewrite E3. apply hflush_ok.
  - lia.
  - lia.
  - replace (64 - (room - n)) with ((64 - room) + n) by lia. rewrite pow2_split.
    assert (w + 1 <= 2 ^ (64 - room)) by lia.
    assert ((w + 1) * 2 ^ n <= 2 ^ (64 - room) * 2 ^ n) by (apply N.mul_le_mono_r; exact H).
    lia.
  - exact H3.
  - rewrite <- H6, <- app_assoc. f_equal. rewrite W.
    replace (N.to_nat (40 - (room - n))) with (N.to_nat (40 - room) + N.to_nat n)%nat by lia.
    replace n with (N.of_nat (N.to_nat n)) at 2 by lia.
    apply num_bits_app. rewrite N2Nat.id. exact N3.
Qed.

Lemma hputs_ok l : forall bs st, bytes_ok l -> hinv bs st ->
  exists st', hputs st l = Ok st' /\ hinv (bs ++ flat_map huff_word l) st'.
Proof.
  induction l as [|b l IH]; intros bs st Hl H; cbn [hputs flat_map].
  - exists st. rewrite app_nil_r. auto.
  - apply bytes_ok_cons in Hl. destruct Hl as [Hb Hl].
    destruct (hput_ok bs st b Hb H) as (st1 & E & H1). rewrite E. cbn [bind].
    destruct (IH _ _ Hl H1) as (st2 & E2 & H2).
    exists st2. split; [exact E2|]. rewrite app_assoc. exact H2.
Qed.

Lemma hfinish_ok bs st : hinv bs st -> bytes_ok (hfinish st) /\
  exists pad, (pad <= 7)%nat /\ text_bits (hfinish st) = bs ++ repeat true pad.
Proof.
  destruct st as [[bits room] out]. intros (H1 & H2 & H3 & w & H4 & H5 & H6). unfold hfinish.
  destruct (N.eqb_spec room 40) as [->|NE].
  - split; [exact H3|]. exists 0%nat. split; [lia|].
    cbn [repeat]. rewrite app_nil_r. rewrite <- H6.
    change (N.to_nat (40 - 40)) with 0%nat. cbn [num_bits]. rewrite app_nil_r. reflexivity.
  - rewrite N.shiftl_mul_pow2, N.shiftr_div_pow2, N.mul_1_l.
    pose proof (pow2_pos room) as P.
    rewrite H5, lor_mul_pow2 by lia.
    split.
    + apply bytes_ok_app. split; [exact H3|]. apply bytes_ok_cons. split; [|apply bytes_ok_nil].
      apply N.mod_lt. lia.
    + exists (N.to_nat (room - 32)). split; [lia|].
      rewrite text_bits_app, <- H6, <- app_assoc. f_equal.
      unfold text_bits. cbn [flat_map]. rewrite app_nil_r.
      change 256 with (2 ^ 8). rewrite num_bits_mod by lia.
      pose proof (pow2_pos (room - 32)) as P2.
      assert (E : (w * 2 ^ room + (2 ^ room - 1)) / 2 ^ 32 = w * 2 ^ (room - 32) + (2 ^ (room - 32) - 1)).
      { symmetry. apply (N.div_unique _ _ _ (2 ^ 32 - 1)); [lia|].
        assert (Q : 2 ^ room = 2 ^ (room - 32) * 2 ^ 32) by (rewrite <- pow2_split; f_equal; lia).
        rewrite Q. revert P2. generalize (2 ^ (room - 32)). intros x Hx.
        change (2 ^ 32) with 4294967296. clear - Hx. lia. }
      rewrite E.
      replace 8%nat with (N.to_nat (40 - room) + N.to_nat (room - 32))%nat by lia.
      replace (room - 32) with (N.of_nat (N.to_nat (room - 32))) at 2 3 by lia.
      rewrite num_bits_app; [|rewrite N2Nat.id; lia].
      rewrite num_bits_ones. reflexivity.
Qed.

Lemma huff_encode_coded s : bytes_ok s ->
  exists b, huff_encode s = Ok b /\ bytes_ok b /\ huff_coded b s.
Proof.
  intros H. assert (I : hinv [] (0, 40, [])).
  { unfold hinv. split; [lia|]. split; [lia|]. split; [apply bytes_ok_nil|]. exists 0.
    split; [apply pow2_pos|]. split; reflexivity. }
  destruct (hputs_ok s [] _ H I) as (st & E & I2).
  destruct (hfinish_ok _ _ I2) as [B (pad & P & T)].
  exists (hfinish st). unfold huff_encode. rewrite E. cbn [bind].
  split; [reflexivity|]. split; [exact B|]. exists pad. split; [exact P|]. exact T.
Qed.

(** The code determines the octets. *)
Lemma huff_coded_unique a b s : bytes_ok a -> bytes_ok b -> huff_coded a s -> huff_coded b s -> a = b.
Proof.
  intros Ha Hb (p & Hp & Ea) (q & Hq & Eb).
  apply text_bits_inj; [exact Ha|exact Hb|].
  assert (La := f_equal (@length bool) Ea). assert (Lb := f_equal (@length bool) Eb).
  rewrite text_bits_length, app_length, repeat_length in La, Lb.
  assert (p = q) by lia. subst q. congruence.
Qed.

(** ** The decoder *)
Definition with_result (s : hstate) (r : bytes) : hstate := mkH (h_current s) (h_len s) (h_true s) (h_result s ++ r).

Lemma hsteps_result l : forall c n t r0 r,
  hsteps (mkH c n t (r0 ++ r)) l =
  match hsteps (mkH c n t r0) l with
  | Ok s => Ok (with_result s r) | Err e => Err e | Panic => Panic | Diverge => Diverge
  end.
Proof.
  induction l as [|b l IH]; intros c n t r0 r; cbn [hsteps]; [reflexivity|].
  unfold hstep. cbn [h_current h_len h_true h_result].
  destruct (255 <? n + 1); [reflexivity|].
  destruct (code_map _) as [v|]; cbn [bind].
  - apply (IH 0 0 true (v :: r0) r).
  - apply IH.
Qed.

Lemma hsteps_app l1 l2 s : hsteps s (l1 ++ l2) = (s' <- hsteps s l1 ;; hsteps s' l2).
Proof.
  revert s. induction l1 as [|b l1 IH]; intros s; cbn [hsteps app bind]; [reflexivity|].
  destruct (hstep s b); cbn [bind]; auto.
Qed.

Definition word_stepb (s : N) : bool :=
  match hsteps (mkH 0 0 true []) (huff_word s) with
  | Ok (mkH 0 0 true [v]) => v =? s mod 256
  | _ => false
  end.

Lemma word_step s r : s <= 256 ->
  hsteps (mkH 0 0 true r) (huff_word s) = Ok (mkH 0 0 true (s mod 256 :: r)).
Proof.
  intros H. assert (T : word_stepb s = true).
  { revert s H. apply symbol_sweep. vm_compute. reflexivity. }
  unfold word_stepb in T. change r with ([] ++ r) at 1. rewrite hsteps_result.
  destruct (hsteps (mkH 0 0 true []) (huff_word s)) as [[c n t res]| | |]; try discriminate T.
  destruct c; [|discriminate T]. destruct n; [|discriminate T].
  destruct t; [|discriminate T]. destruct res as [|v [|]]; try discriminate T.
  unfold with_result. cbn [h_current h_len h_true h_result app]. f_equal. f_equal. f_equal. lia.
Qed.

Lemma words_step l : forall r, Forall (fun s => s <= 256) l ->
  hsteps (mkH 0 0 true r) (flat_map huff_word l) = Ok (mkH 0 0 true (rev (map (fun s => s mod 256) l) ++ r)).
Proof.
  induction l as [|s l IH]; intros r H; cbn [flat_map map rev app]; [reflexivity|].
  inversion H as [|? ? Hs Hl]; subst. rewrite hsteps_app, word_step by exact Hs. cbn [bind].
  rewrite IH by exact Hl. rewrite <- app_assoc. reflexivity.
Qed.

Definition pad_stepb (p : nat) : bool :=
  match hsteps (mkH 0 0 true []) (repeat true p) with
  | Ok (mkH _ n true []) => n <=? 7
  | _ => false
  end.
Lemma pad_step p r : (p <= 7)%nat -> exists c n,
  hsteps (mkH 0 0 true r) (repeat true p) = Ok (mkH c n true r) /\ n <= 7.
Proof.
  intros H. assert (T : pad_stepb p = true).
  { assert (A : forallb pad_stepb (seq 0 8) = true) by (vm_compute; reflexivity).
    rewrite forallb_forall in A. apply A. apply in_seq. lia. }
  unfold pad_stepb in T. change r with ([] ++ r) at 1. rewrite hsteps_result.
  destruct (hsteps (mkH 0 0 true []) (repeat true p)) as [[c n t res]| | |]; try discriminate T.
  destruct t; [|discriminate T]. destruct res; [|discriminate T].
  exists c, n. split; [reflexivity|]. lia.
Qed.

Lemma huff_decode_coded b syms : Forall (fun s => s <= 256) syms -> huff_coded b syms ->
  huff_decode b = Ok (map (fun s => s mod 256) syms).
Proof.
  intros H (p & Hp & E). unfold huff_decode. rewrite bit_iter_text, E, hsteps_app.
  rewrite words_step by exact H. cbn [bind].
  destruct (pad_step p (rev (map (fun s => s mod 256) syms) ++ []) Hp) as (c & n & -> & Hn).
  cbn [bind h_len h_true h_result negb].
  destruct (N.ltb_spec 7 n) as [L|_]; [lia|].
  rewrite app_nil_r, rev_involutive. reflexivity.
Qed.

(** The tree of code words. *)
Inductive trie := Tip | Leaf (s : N) | Node (l r : trie).
Fixpoint trie_add (t : trie) (w : list bool) (s : N) : trie :=
  match w with
  | [] => Leaf s
  | b :: w' =>
    let '(l, r) := match t with Node l r => (l, r) | _ => (Tip, Tip) end in
    if b then Node l (trie_add r w' s) else Node (trie_add l w' s) r
  end.
Definition the_trie : trie := Eval vm_compute in
  fold_left (fun t e => trie_add t (snd e) (fst e)) code_words Tip.

(** [t] below the path of [n] bits with value [c]: inner nodes miss the map, leaves hit it. *)
Definition next_cur (c : N) (b : bool) : N :=
  let cur := (N.shiftl c 1) mod 2 ^ 32 in if b then N.lor cur 1 else cur.
Fixpoint trie_okb (t : trie) (c n : N) (path : list bool) : bool :=
  match t with
  | Tip => false
  | Leaf s =>
    (s <=? 256) && bits_eqb (huff_word s) path &&
    match code_map (c, n) with Some v => v =? s mod 256 | None => false end
  | Node l r =>
    (n <? 255) &&
    match code_map (c, n) with Some _ => false | None => true end &&
    trie_okb l (next_cur c false) (n + 1) (path ++ [false]) &&
    trie_okb r (next_cur c true) (n + 1) (path ++ [true])
  end.
Lemma the_trie_ok : trie_okb the_trie 0 0 [] = true.
Proof. vm_compute. reflexivity. Qed.
Lemma the_trie_node : exists l r, the_trie = Node l r.
Proof. eexists. eexists. reflexivity. Qed.

Lemma hsteps_trie l : forall t c n path r,
  trie_okb t c n path = true -> (exists a b, t = Node a b) ->
  n = N.of_nat (length path) ->
  exists s syms rest,
    hsteps (mkH c n (forallb (fun b => b) path) r) l = Ok s /\
    path ++ l = flat_map huff_word syms ++ rest /\ Forall (fun s => s <= 256) syms /\
    h_result s = rev (map (fun s => s mod 256) syms) ++ r /\
    h_len s = N.of_nat (length rest) /\ h_true s = forallb (fun b => b) rest.
Proof.
  induction l as [|b l IH]; intros t c n path r T (ta & tb & ->) Hn.
  - exists (mkH c n (forallb (fun b => b) path) r), [], path. rewrite app_nil_r.
    cbn [hsteps flat_map app rev map h_result h_len h_true]. auto 8.
  - cbn [hsteps trie_okb] in *. rewrite !andb_true_iff in T. destruct T as [[[T1 T2] T3] T4].
    unfold hstep. cbn [h_current h_len h_true h_result].
    destruct (N.ltb_spec 255 (n + 1)) as [L|_]; [lia|].
    fold (next_cur c b).
    assert (TB : trie_okb (if b then tb else ta) (next_cur c b) (n + 1) (path ++ [b]) = true).
    { destruct b; assumption. }
    assert (EQ : (if b then forallb (fun b => b) path else false) = forallb (fun b => b) (path ++ [b])).
    { rewrite forallb_app. cbn [forallb]. destruct b, (forallb (fun b => b) path); reflexivity. }
    rewrite EQ.
    replace (path ++ b :: l) with ((path ++ [b]) ++ l) by (rewrite <- app_assoc; reflexivity).
    assert (Hn' : n + 1 = N.of_nat (length (path ++ [b]))) by (rewrite app_length; cbn [length]; lia).
    destruct (if b then tb else ta) as [|s|u v] eqn:ET.
    + discriminate TB.
    + cbn [trie_okb] in TB. rewrite !andb_true_iff in TB. destruct TB as [[TB1 TB2] TB3].
      apply bits_eqb_eq in TB2.
      destruct (code_map (next_cur c b, n + 1)) as [v|]; [|discriminate TB3]. cbn [bind].
      destruct (IH the_trie 0 0 [] (v :: r) the_trie_ok the_trie_node eq_refl)
        as (s' & syms & rest & E1 & E2 & E3 & E4 & E5 & E6).
      exists s', (s :: syms), rest. split; [exact E1|].
      split. { cbn [app] in E2. cbn [flat_map]. rewrite E2, TB2. apply app_assoc. }
      split. { constructor; [lia|exact E3]. }
      split. { rewrite E4. cbn [map rev]. rewrite <- app_assoc. cbn [app]. repeat f_equal. lia. }
      split; assumption.
    + assert (CM : code_map (next_cur c b, n + 1) = None).
      { cbn [trie_okb] in TB. rewrite !andb_true_iff in TB. destruct TB as [[[_ TB2] _] _].
        destruct (code_map (next_cur c b, n + 1)); [discriminate TB2|reflexivity]. }
      rewrite CM. cbn [bind].
      apply (IH (Node u v)); [exact TB|eauto|exact Hn'].
Qed.

Lemma huff_decode_run b : exists syms rest,
  text_bits b = flat_map huff_word syms ++ rest /\ Forall (fun s => s <= 256) syms /\
  huff_decode b = if (7 <? N.of_nat (length rest)) || negb (forallb (fun x => x) rest)
                  then Err (EHttp2 (HuffmanErr PaddingTooLarge))
                  else Ok (map (fun s => s mod 256) syms).
Proof.
  destruct (hsteps_trie (text_bits b) the_trie 0 0 [] [] the_trie_ok the_trie_node eq_refl)
    as (s & syms & rest & E1 & E2 & E3 & E4 & E5 & E6).
  exists syms, rest. split; [exact E2|]. split; [exact E3|].
  unfold huff_decode. rewrite bit_iter_text. cbn [forallb] in E1. rewrite E1. cbn [bind].
  rewrite E4, E5, E6, app_nil_r, rev_involutive.
  destruct (7 <? N.of_nat (length rest)); [reflexivity|].
  destruct (forallb (fun x => x) rest); reflexivity.
Qed.

Lemma all_true_repeat l : forallb (fun b : bool => b) l = true -> l = repeat true (length l).
Proof.
  induction l as [|x l IH]; intros H; [reflexivity|]. cbn [forallb length repeat] in *.
  apply andb_true_iff in H. destruct H as [-> H]. f_equal. auto.
Qed.

Lemma huff_decode_exact b s :
  huff_decode b = Ok s <->
  exists syms, Forall (fun x => x <= 256) syms /\ huff_coded b syms /\ s = map (fun x => x mod 256) syms.
Proof.
  split.
  - intros H. destruct (huff_decode_run b) as (syms & rest & E1 & E2 & E3). rewrite H in E3.
    destruct (N.ltb_spec 7 (N.of_nat (length rest))) as [L|L]; [discriminate E3|].
    destruct (forallb (fun x => x) rest) eqn:F; [|discriminate E3].
    cbn [orb negb] in E3. injection E3 as E3.
    exists syms. split; [exact E2|]. split; [|exact E3].
    exists (length rest). split; [lia|]. rewrite E1. f_equal. apply all_true_repeat, F.
  - intros (syms & H1 & H2 & ->). apply huff_decode_coded; assumption.
Qed.

Lemma huff_decode_total b :
  (exists s, huff_decode b = Ok s /\ bytes_ok s) \/ huff_decode b = Err (EHttp2 (HuffmanErr PaddingTooLarge)).
Proof.
  destruct (huff_decode_run b) as (syms & rest & _ & _ & E).
  destruct (_ || _); [auto|]. left. eexists. split; [exact E|].
  apply Forall_forall. intros x Hx. apply in_map_iff in Hx. destruct Hx as (y & <- & _).
  unfold byte_ok. apply N.mod_lt. lia.
Qed.

Lemma bytes_symbols s : bytes_ok s -> Forall (fun x => x <= 256) s.
Proof. intros H. eapply Forall_impl; [|exact H]. intros x Hx. unfold byte_ok in Hx. lia. Qed.

Lemma map_mod_bytes s : bytes_ok s -> map (fun x => x mod 256) s = s.
Proof.
  intros H. rewrite <- (map_id s) at 2. apply map_ext_in. intros x Hx.
  apply N.mod_small. unfold bytes_ok in H. rewrite Forall_forall in H. exact (H x Hx).
Qed.

Lemma huff_decode_bytes b s : bytes_ok s -> huff_coded b s -> huff_decode b = Ok s.
Proof.
  intros H C. rewrite (huff_decode_coded b s); [|apply bytes_symbols, H|exact C].
  rewrite map_mod_bytes by exact H. reflexivity.
Qed.

Lemma huff_round_trip s : bytes_ok s ->
  exists b, huff_encode s = Ok b /\ bytes_ok b /\ huff_decode b = Ok s.
Proof.
  intros H. destruct (huff_encode_coded s H) as (b & E & B & C).
  exists b. split; [exact E|]. split; [exact B|]. apply huff_decode_bytes; assumption.
Qed.

Lemma lower_ok s : bytes_ok s -> bytes_ok (map lower_byte s).
Proof.
  intros H. apply Forall_forall. intros x Hx. apply in_map_iff in Hx. destruct Hx as (y & <- & Hy).
  unfold bytes_ok in H. rewrite Forall_forall in H. specialize (H y Hy). unfold byte_ok, lower_byte in *.
  destruct ((65 <=? y) && (y <=? 90)) eqn:E; lia.
Qed.

Lemma huff_canonical b s : bytes_ok b -> huff_decode b = Ok s -> ~ In 0 s -> huff_encode s = Ok b.
Proof.
  intros B D Z. apply huff_decode_exact in D. destruct D as (syms & H1 & H2 & E).
  assert (S : bytes_ok syms).
  { apply Forall_forall. intros x Hx. rewrite Forall_forall in H1. specialize (H1 x Hx).
    unfold byte_ok. destruct (N.eq_dec x 256) as [->|]; [|lia].
    exfalso. apply Z. rewrite E. apply in_map_iff. exists 256. split; [reflexivity|exact Hx]. }
  rewrite map_mod_bytes in E by exact S. subst s.
  destruct (huff_encode_coded syms S) as (b' & -> & B' & C). f_equal.
  apply (huff_coded_unique b' b syms); assumption.
Qed.

(** ** Prefix-freeness and completeness *)
Fixpoint is_pre (a b : list bool) : bool :=
  match a, b with
  | [], _ => true
  | x :: a', y :: b' => Bool.eqb x y && is_pre a' b'
  | _, [] => false
  end.
Lemma is_pre_app a c : is_pre a (a ++ c) = true.
Proof. induction a as [|x a IH]; cbn [is_pre app]; [reflexivity|]. rewrite Bool.eqb_reflx. exact IH. Qed.

Lemma huff_prefix_free s t : s <= 256 -> t <= 256 -> bits_prefix (huff_word s) (huff_word t) -> s = t.
Proof.
  intros Hs Ht (c & E).
  assert (T : negb (is_pre (huff_word s) (huff_word t)) || (s =? t) = true).
  { revert s t Hs Ht E. intros s t Hs Ht _. revert s t Hs Ht.
    apply (symbol_sweep2 (fun s t => negb (is_pre (huff_word s) (huff_word t)) || (s =? t))).
    vm_compute. reflexivity. }
  rewrite E, is_pre_app in T. cbn [negb orb] in T. lia.
Qed.

(** Huffman-coded strings are at most four octets per octet. *)
Lemma huff_coded_length b s : bytes_ok s -> huff_coded b s -> blen b <= 4 * blen s.
Proof.
  intros H (p & Hp & E). apply (f_equal (@length bool)) in E.
  rewrite text_bits_length, app_length, repeat_length in E.
  assert (L : (length (flat_map huff_word s) <= 30 * length s)%nat).
  { clear E. induction s as [|x s IH]; [cbn; lia|].
    apply bytes_ok_cons in H. destruct H as [Hx H]. cbn [flat_map length]. rewrite app_length.
    pose proof (huff_word_length x ltac:(lia)). specialize (IH H). lia. }
  unfold blen. destruct s as [|x s]; [cbn [flat_map length] in *; lia|]. cbn [length] in *. lia.
Qed.

Lemma table_is_code :
  length HUFFMAN_CODE_ARRAY = 257%nat /\
  forall s, s <= 256 -> exists c n, nth_error HUFFMAN_CODE_ARRAY (N.to_nat s) = Some (c, n) /\
    c < 2 ^ n /\ huff_word s = num_bits (N.to_nat n) c /\ length (huff_word s) = N.to_nat n.
Proof.
  split; [reflexivity|]. intros s H. destruct (table_ok s H) as (c & n & E & _ & _ & H3 & H4).
  exists c, n. split.
  - rewrite <- E. apply nth_error_nth'. change (length HUFFMAN_CODE_ARRAY) with 257%nat. lia.
  - split; [exact H3|]. split; [exact H4|]. rewrite H4. apply num_bits_length.
Qed.
