(** Lemmas about the HPACK tables and string literals. *)
From Coq Require Import Ascii String NArith ZArith Lia Bool List ZifyBool ZifyNat ZifyN.
From Verif Require Import Base S_Utf8 P_Base M_Std M_Helper M_Header M_Huffman M_Hpack.
From Verif Require Import S_Huffman S_Hpack P_Huffman P_Hpack.
Import ListNotations.
Local Open Scope N_scope.
Ltac Zify.zify_post_hook ::= Z.div_mod_to_equations.

(** ** String literals *)
Lemma firstn_blen (a b : bytes) : firstn (N.to_nat (blen a)) (a ++ b) = a.
Proof.
  unfold blen. rewrite Nat2N.id, firstn_app, Nat.sub_diag, firstn_all. cbn [firstn]. apply app_nil_r.
Qed.
Lemma skipn_blen (a b : bytes) : skipn (N.to_nat (blen a)) (a ++ b) = b.
Proof. unfold blen. rewrite Nat2N.id, skipn_app, Nat.sub_diag, skipn_all. reflexivity. Qed.

Lemma flag_0 p : flag_bits p 0.
Proof. split; [lia|]. exists 0. reflexivity. Qed.
Lemma flag_128 : flag_bits 7 128.
Proof. split; [lia|]. exists 1. reflexivity. Qed.
Lemma flag_64 : flag_bits 6 64.
Proof. split; [lia|]. exists 1. reflexivity. Qed.
Lemma flag_16 : flag_bits 4 16.
Proof. split; [lia|]. exists 1. reflexivity. Qed.

Lemma int_repr_head p fl l v : int_repr p fl l v -> exists x l', l = x :: l' /\ fl <= x /\ x <= fl + (2 ^ p - 1).
Proof.
  intros [w H|l' w H].
  - exists (fl + w), []. split; [reflexivity|]. lia.
  - exists (fl + (2 ^ p - 1)), l'. split; [reflexivity|]. lia.
Qed.

Lemma decode_string_repr l s rest : str_repr l s -> decode_string (l ++ rest) = Ok (s, blen l).
Proof.
  intros [h t HI HL HB|h c t HI HL HC HB HH]; unfold decode_string; rewrite <- app_assoc;
    destruct (int_repr_head _ _ _ _ HI) as (x & h' & Eh & Hx1 & Hx2); change (2 ^ 7 - 1) with 127 in Hx2.
  - rewrite (decode_integer_repr 7 0 h _ _ ltac:(lia) (flag_0 7) HI HL). cbn [bind].
    rewrite !blen_app. destruct (N.ltb_spec (blen h + (blen t + blen rest)) (blen h + blen t)) as [A|_]; [lia|].
    rewrite skipn_blen, firstn_blen.
    rewrite Eh. cbn [hd app]. destruct (byte_parts x ltac:(lia)) as [_ E]. rewrite E.
    destruct (N.leb_spec 128 x) as [A|_]; [lia|]. reflexivity.
  - rewrite (decode_integer_repr 7 128 h _ _ ltac:(lia) flag_128 HI HL). cbn [bind].
    rewrite !blen_app. destruct (N.ltb_spec (blen h + (blen c + blen rest)) (blen h + blen c)) as [A|_]; [lia|].
    rewrite skipn_blen, firstn_blen.
    rewrite Eh. cbn [hd app]. destruct (byte_parts x ltac:(lia)) as [_ E]. rewrite E.
    destruct (N.leb_spec 128 x) as [_|A]; [|lia].
    rewrite (huff_decode_bytes c t HB HH). reflexivity.
Qed.

Lemma str_repr_pos l s : str_repr l s -> 1 <= blen l.
Proof.
  intros [h t HI HL HB|h c t HI HL HC HB HH]; destruct (int_repr_head _ _ _ _ HI) as (x & h' & -> & _);
    rewrite blen_app, blen_cons; lia.
Qed.

Lemma encode_string_repr s : bytes_ok s -> blen s < 2 ^ 26 ->
  exists b, encode_string s = Ok b /\ str_repr b s.
Proof.
  intros H L. destruct (huff_encode_coded s H) as (c & E & B & C).
  unfold encode_string. rewrite E. cbn [bind]. eexists. split; [reflexivity|].
  pose proof (huff_coded_length c s H C) as LC.
  change (2 ^ 26) with 67108864 in L.
  assert (A : blen c < 2 ^ 7 - 1 + 2 ^ 28).
  { change (2 ^ 7 - 1 + 2 ^ 28) with 268435583. lia. }
  apply str_huff; [|apply encode_integer_length; [lia|exact A]|exact B|exact H|exact C].
  change 128 with (above 7 128) at 1. apply encode_integer_repr; lia.
Qed.

Lemma encode_string_lower_repr s : bytes_ok s -> blen s < 2 ^ 26 ->
  exists b, encode_string_lower s = Ok b /\ str_repr b (map lower_ascii s).
Proof.
  intros H L. apply encode_string_repr; [apply lower_ok, H|].
  unfold blen in *. rewrite map_length. exact L.
Qed.

(** Any outcome. *)
Lemma bind_total {A B} (m : res A) (f : A -> res B) :
  (exists x, m = Ok x /\ bind m f = f x) \/ (exists e, m = Err e /\ bind m f = Err e) \/
  (m = Panic /\ bind m f = Panic) \/ (m = Diverge /\ bind m f = Diverge).
Proof. destruct m; cbn [bind]; eauto 6. Qed.

(** Errors of the HPACK decoder. *)
Definition hpack_error (e : werr) : Prop :=
  (exists d, e = EHttp2 (DecoderErr d)) \/ e = EHttp2 (HuffmanErr PaddingTooLarge).

Lemma decode_string_total buf :
  (exists s k, decode_string buf = Ok (s, k) /\ 1 <= k /\ k <= blen buf) \/
  exists e, decode_string buf = Err e /\ hpack_error e.
Proof.
  unfold decode_string.
  destruct (decode_integer_total buf 7) as [[[len n] E]|[e E]]; rewrite E; cbn [bind].
  - pose proof (decode_integer_bound _ _ _ _ E) as [B1 B2].
    destruct (N.ltb_spec (blen buf) (n + len)) as [L|L].
    + right. eexists. split; [reflexivity|]. left. eexists. reflexivity.
    + destruct (N.land (hd 0 buf) 128 =? 128).
      * destruct (huff_decode_total (firstn (N.to_nat len) (skipn (N.to_nat n) buf))) as [(s & D & _)|D];
          rewrite D; cbn [bind].
        -- left. exists s, (n + len). split; [reflexivity|]. lia.
        -- right. eexists. split; [reflexivity|]. right. reflexivity.
      * left. eexists. eexists. split; [reflexivity|]. lia.
  - right. eexists. split; [reflexivity|]. left. eexists. reflexivity.
Qed.

Lemma firstn_skipn_app (buf x : bytes) n len : n + len <= blen buf ->
  firstn (N.to_nat len) (skipn (N.to_nat n) (buf ++ x)) = firstn (N.to_nat len) (skipn (N.to_nat n) buf).
Proof.
  intros H. unfold blen in H. rewrite skipn_app, firstn_app.
  replace (N.to_nat len - length (skipn (N.to_nat n) buf))%nat with 0%nat by (rewrite skipn_length; lia).
  cbn [firstn]. apply app_nil_r.
Qed.

Lemma decode_string_stable buf x r : decode_string buf = Ok r -> decode_string (buf ++ x) = Ok r.
Proof.
  unfold decode_string. destruct (decode_integer buf 7) as [[len n]| | |] eqn:E; cbn [bind]; try discriminate.
  rewrite (decode_integer_stable _ x _ _ E). cbn [bind].
  pose proof (decode_integer_bound _ _ _ _ E) as [B1 B2].
  destruct (N.ltb_spec (blen buf) (n + len)) as [L|L]; [discriminate|].
  rewrite blen_app. destruct (N.ltb_spec (blen buf + blen x) (n + len)) as [L2|L2]; [lia|].
  rewrite firstn_skipn_app by exact L.
  destruct buf as [|b buf]; [rewrite blen_nil in B2; lia|]. cbn [hd app]. auto.
Qed.

(** ** The dynamic table *)
Definition idx_inv (t : hindex) : Prop := hi_size t = total_size (hi_table t) /\ hi_size t <= hi_max t.

Lemma total_size_app a b : total_size (a ++ b) = total_size a + total_size b.
Proof. induction a as [|f a IH]; cbn [total_size fold_right app]; [reflexivity|]. unfold total_size in *. lia. Qed.

Lemma newest_fits max l : total_size l <= max -> newest max l = l.
Proof.
  revert max. induction l as [|f l IH]; intros max H; cbn [newest]; [reflexivity|].
  cbn [total_size fold_right] in H. fold (total_size l) in H.
  destruct (N.leb_spec (size_of f) max) as [L|L]; [|lia]. rewrite IH by lia. reflexivity.
Qed.

Lemma newest_drop max l x : max < total_size (l ++ [x]) -> newest max (l ++ [x]) = newest max l.
Proof.
  revert max. induction l as [|f l IH]; intros max H; cbn [newest app].
  - cbn [app total_size fold_right] in H. destruct (N.leb_spec (size_of x) max); [lia|reflexivity].
  - cbn [app total_size fold_right] in H. fold (total_size (l ++ [x])) in H.
    destruct (N.leb_spec (size_of f) max) as [L|L]; [|reflexivity]. rewrite IH by lia. reflexivity.
Qed.

Lemma newest_size max l : total_size (newest max l) <= max.
Proof.
  revert max. induction l as [|f l IH]; intros max; cbn [newest]; [cbn; lia|].
  destruct (N.leb_spec (size_of f) max) as [L|L]; [|cbn; lia].
  cbn [total_size fold_right]. specialize (IH (max - size_of f)). unfold total_size in IH. lia.
Qed.

Lemma newest_incl max l : forall f, In f (newest max l) -> In f l.
Proof.
  revert max. induction l as [|g l IH]; intros max f H; cbn [newest] in H; [exact H|].
  destruct (size_of g <=? max); [|contradiction]. destruct H as [->|H]; [left; reflexivity|right; eauto].
Qed.

Lemma back_app {A} (l : list A) x : back (l ++ [x]) = Some x.
Proof. destruct l as [|y l]; cbn [app back]; [reflexivity|]. rewrite last_last. reflexivity. Qed.

Lemma consolidate_spec fuel : forall t, (length (hi_table t) < fuel)%nat -> hi_size t = total_size (hi_table t) ->
  consolidate fuel t = Ok (mkIdx (newest (hi_max t) (hi_table t)) (total_size (newest (hi_max t) (hi_table t))) (hi_max t)).
Proof.
  induction fuel as [|f IH]; intros [l s m]; cbn [hi_table hi_size hi_max consolidate]; intros L S; [lia|].
  subst s. destruct (N.ltb_spec m (total_size l)) as [G|G].
  - destruct l as [|x l] using rev_ind; [cbn in G; lia|]. clear IHl.
    rewrite back_app, removelast_last, total_size_app.
    change (total_size [x]) with (size_of x + 0). change (entry_size x) with (size_of x). rewrite N.add_0_r.
    destruct (N.ltb_spec (total_size l + size_of x) (size_of x)) as [A|_]; [lia|].
    rewrite newest_drop by exact G.
    rewrite app_length in L. cbn [length] in L.
    rewrite IH; cbn [hi_table hi_size hi_max]; [reflexivity|lia|lia].
  - rewrite newest_fits by exact G. reflexivity.
Qed.

Lemma consolidate_table_spec t : hi_size t = total_size (hi_table t) ->
  consolidate_table t = Ok (mkIdx (newest (hi_max t) (hi_table t)) (total_size (newest (hi_max t) (hi_table t))) (hi_max t)).
Proof. intros H. apply consolidate_spec; [lia|exact H]. Qed.

Definition idx_of (max : N) (l : list hfield) : hindex := mkIdx l (total_size l) max.
Lemma idx_of_inv max l : total_size l <= max -> idx_inv (idx_of max l).
Proof. intros H. split; [reflexivity|exact H]. Qed.
Lemma inv_idx_of t : idx_inv t -> t = idx_of (hi_max t) (hi_table t) /\ total_size (hi_table t) <= hi_max t.
Proof. destruct t as [l s m]. intros [E H]. cbn in *. subst s. auto. Qed.

Lemma add_header_spec t f : idx_inv t ->
  add_header t f = Ok (idx_of (hi_max t) (rfc_add (hi_max t) (hi_table t) f)).
Proof.
  intros [E H]. unfold add_header. rewrite consolidate_table_spec; [reflexivity|].
  cbn [hi_size hi_table total_size fold_right]. fold (total_size (hi_table t)). rewrite E.
  change (entry_size f) with (size_of f). lia.
Qed.

Lemma set_max_spec t m : idx_inv t ->
  set_max_table_size t m = Ok (idx_of m (newest m (hi_table t))).
Proof. intros [E H]. unfold set_max_table_size. rewrite consolidate_table_spec; [reflexivity|exact E]. Qed.

Lemma rfc_add_inv max l f : idx_inv (idx_of max (rfc_add max l f)).
Proof. apply idx_of_inv, newest_size. Qed.
Lemma newest_inv max l : idx_inv (idx_of max (newest max l)).
Proof. apply idx_of_inv, newest_size. Qed.

(** ** Lookup *)
Lemma get_from_index_app t i :
  get_from_index t i = if i =? 0 then None else nth_error (STATIC_TABLE ++ hi_table t) (N.to_nat (i - 1)).
Proof.
  unfold get_from_index. destruct (i =? 0); [reflexivity|].
  destruct (Nat.ltb_spec (N.to_nat (i - 1)) (length STATIC_TABLE)) as [L|L].
  - rewrite nth_error_app1 by exact L. reflexivity.
  - rewrite nth_error_app2 by exact L. reflexivity.
Qed.

Definition field_eqb (a b : hfield) : bool := beq (fst a) (fst b) && beq (snd a) (snd b).
Definition ofield_eqb (a b : option hfield) : bool :=
  match a, b with Some x, Some y => field_eqb x y | None, None => true | _, _ => false end.
Lemma field_eqb_eq a b : field_eqb a b = true -> a = b.
Proof.
  destruct a as [n v], b as [n' v']. unfold field_eqb. cbn [fst snd]. rewrite andb_true_iff, !beq_eq.
  intros [-> ->]. reflexivity.
Qed.
Lemma ofield_eqb_eq a b : ofield_eqb a b = true -> a = b.
Proof.
  destruct a, b; cbn [ofield_eqb]; intros H; try discriminate H; [|reflexivity].
  f_equal. apply field_eqb_eq, H.
Qed.

Lemma static_rfc k : k <> 14%nat -> nth_error STATIC_TABLE k = nth_error (map rfc_entry rfc_static) k.
Proof.
  intros H. destruct (Nat.ltb_spec k 61) as [L|L].
  - assert (A : forallb (fun k => Nat.eqb k 14 || ofield_eqb (nth_error STATIC_TABLE k) (nth_error (map rfc_entry rfc_static) k)) (seq 0 61) = true)
      by (vm_compute; reflexivity).
    rewrite forallb_forall in A. specialize (A k). rewrite in_seq in A. specialize (A ltac:(lia)).
    apply orb_true_iff in A. destruct A as [A|A]; [apply Nat.eqb_eq in A; contradiction|].
    apply ofield_eqb_eq, A.
  - rewrite (proj2 (nth_error_None STATIC_TABLE k)); [|exact L].
    rewrite (proj2 (nth_error_None _ k)); [reflexivity|exact L].
Qed.

Lemma get_from_index_rfc t i : i <> 15 -> get_from_index t i = rfc_lookup (hi_table t) i.
Proof.
  intros H. rewrite get_from_index_app. unfold rfc_lookup.
  destruct (N.eqb_spec i 0) as [E|E]; [reflexivity|].
  set (k := N.to_nat (i - 1)). assert (K : k <> 14%nat) by lia.
  assert (L1 : length STATIC_TABLE = 61%nat) by reflexivity.
  assert (L2 : length (map rfc_entry rfc_static) = 61%nat) by reflexivity.
  destruct (Nat.ltb_spec k 61) as [L|L].
  - rewrite !nth_error_app1 by lia. apply static_rfc, K.
  - rewrite !nth_error_app2 by lia. rewrite L1, L2. reflexivity.
Qed.

(** ** Search *)
Lemma static_pos_spec l : forall i n v k, static_pos_from i l n v = Some k ->
  exists j e, k = i + N.of_nat j /\ nth_error l j = Some e /\ static_match (fst e) n = true /\ snd e = v.
Proof.
  induction l as [|e l IH]; intros i n v k H; cbn [static_pos_from] in H; [discriminate H|].
  destruct (static_pos_from (i + 1) l n v) as [k'|] eqn:E.
  - injection H as <-. apply IH in E. destruct E as (j & e' & -> & N1 & N2 & N3).
    exists (S j), e'. split; [lia|]. auto.
  - destruct (static_match (fst e) n) eqn:M; cbn [andb] in H; [|discriminate H].
    destruct (beq (snd e) v) eqn:B; [|discriminate H]. injection H as <-. apply beq_eq in B.
    exists 0%nat, e. split; [lia|]. auto.
Qed.

Lemma dyn_find_spec l : forall i n v k, dyn_find i l n v = Some k ->
  exists j e, k = i + N.of_nat j /\ nth_error l j = Some e /\ name_eq (fst e) n = true /\ snd e = v.
Proof.
  induction l as [|e l IH]; intros i n v k H; cbn [dyn_find] in H; [discriminate H|].
  destruct (name_eq (fst e) n) eqn:M; cbn [andb] in H.
  - destruct (beq (snd e) v) eqn:B.
    + injection H as <-. apply beq_eq in B. exists 0%nat, e. split; [lia|]. auto.
    + apply IH in H. destruct H as (j & e' & -> & H). exists (S j), e'. split; [lia|]. exact H.
  - apply IH in H. destruct H as (j & e' & -> & H). exists (S j), e'. split; [lia|]. exact H.
Qed.

Lemma static_lower : Forall (fun e : hfield => map lower_ascii (fst e) = fst e) STATIC_TABLE.
Proof.
  apply Forall_forall. intros e He.
  assert (A : forallb (fun e : hfield => beq (map lower_ascii (fst e)) (fst e)) STATIC_TABLE = true)
    by (vm_compute; reflexivity).
  rewrite forallb_forall in A. apply beq_eq, A, He.
Qed.

Lemma static_match_lower e n : In e STATIC_TABLE -> static_match (fst e) n = true -> fst e = map lower_ascii n.
Proof.
  intros He H. unfold static_match in H. apply andb_true_iff in H. destruct H as [H _]. apply beq_eq in H.
  pose proof static_lower as S. rewrite Forall_forall in S. rewrite <- (S e He). exact H.
Qed.
