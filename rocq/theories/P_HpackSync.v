(** Lemmas about an HPACK encoder and a decoder working together. *)
From Coq Require Import Ascii String NArith ZArith Lia Bool List ZifyBool ZifyNat ZifyN.
From Verif Require Import Base S_Utf8 P_Base M_Std M_Helper M_Header M_Huffman M_Hpack.
From Verif Require Import S_Http1 S_Map P_Map S_Huffman S_Hpack S_HpackApi P_Huffman P_Hpack P_HpackTable P_HpackCodec S_Near.
Import ListNotations.
Local Open Scope N_scope.
Ltac Zify.zify_post_hook ::= Z.div_mod_to_equations.

(** ** Names *)
Lemma clash_ascii a : forall b, Forall (fun x => x < 128) a -> Forall (fun x => x < 128) b -> clash_free a b ->
  name_eq a b = true -> map lower_ascii a = map lower_ascii b.
Proof.
  unfold name_eq. induction a as [|x a IH]; intros [|y b] Ha Hb C H; try discriminate; [reflexivity|].
  inversion Ha as [|? ? Hx Ha']; inversion Hb as [|? ? Hy Hb']; subst. cbn [eq_bytes_ic] in H.
  apply andb_true_iff in H as [H1 H2]. cbn [map]. f_equal.
  - apply eq_byte_ic_iff in H1; [|lia..].
    assert (D : x = y \/ (x = y + 32 \/ y = x + 32)) by lia. destruct D as [->|D]; [reflexivity|].
    destruct (C 0%nat x y eq_refl eq_refl D) as [Ax Ay].
    unfold alpha, upper, lower in *. unfold lower_ascii.
    destruct ((65 <=? x) && (x <=? 90)) eqn:E1, ((65 <=? y) && (y <=? 90)) eqn:E2; lia.
  - apply IH; try assumption. intros i u v Hu Hv. apply (C (S i)); assumption.
Qed.

Lemma ascii_ok n : Forall (fun x => x < 128) n -> bytes_ok n.
Proof. intros H. eapply Forall_impl; [|exact H]. intros b Hb. cbn beta in Hb. unfold byte_ok. lia. Qed.

Lemma lower_ascii_utf8 n : Forall (fun x => x < 128) n -> is_utf8 (map lower_ascii n).
Proof.
  intros H. apply utf8_valid_iff. apply utf8_valid_ascii. apply Forall_forall. intros x Hx.
  apply in_map_iff in Hx. destruct Hx as (y & <- & Hy). rewrite Forall_forall in H. specialize (H y Hy). cbn beta in H.
  unfold lower_ascii. destruct ((65 <=? y) && (y <=? 90)) eqn:E; lia.
Qed.

(** ** Tables and lower case *)
Lemma size_lower f : size_of (lower_field f) = size_of f.
Proof. unfold size_of, lower_field. cbn [fst snd]. unfold blen. rewrite map_length. reflexivity. Qed.
Lemma newest_lower l : forall max, map lower_field (newest max l) = newest max (map lower_field l).
Proof.
  induction l as [|f l IH]; intros max; [reflexivity|]. cbn [newest map]. rewrite size_lower.
  destruct (size_of f <=? max); [cbn [map]; rewrite IH|]; reflexivity.
Qed.
Lemma add_lower max d f : map lower_field (rfc_add max d f) = rfc_add max (map lower_field d) (lower_field f).
Proof. unfold rfc_add. apply newest_lower. Qed.
Lemma total_lower l : total_size (map lower_field l) = total_size l.
Proof. induction l as [|f l IH]; [reflexivity|]. cbn [map total_size fold_right]. fold (total_size l) (total_size (map lower_field l)). rewrite size_lower, IH. reflexivity. Qed.

Lemma static_length : length STATIC_TABLE = 61%nat.
Proof. vm_compute. reflexivity. Qed.
Lemma code_lookup_static d j e : nth_error STATIC_TABLE j = Some e -> code_lookup d (1 + N.of_nat j) = Some e.
Proof.
  intros H. pose proof (nth_error_Some STATIC_TABLE j) as [L _]. rewrite H in L. specialize (L ltac:(discriminate)).
  unfold code_lookup, get_from_index. destruct (N.eqb_spec (1 + N.of_nat j) 0) as [A|_]; [lia|].
  replace (N.to_nat (1 + N.of_nat j - 1)) with j by lia.
  destruct (Nat.ltb_spec j (length STATIC_TABLE)) as [_|A]; [exact H|lia].
Qed.
Lemma code_lookup_dyn d j : code_lookup d (N.of_nat j + 1 + N.of_nat (length STATIC_TABLE)) = nth_error d j.
Proof.
  unfold code_lookup, get_from_index. rewrite static_length.
  destruct (N.eqb_spec (N.of_nat j + 1 + N.of_nat 61) 0) as [A|_]; [lia|].
  replace (N.to_nat (N.of_nat j + 1 + N.of_nat 61 - 1)) with (j + 61)%nat by lia.
  destruct (Nat.ltb_spec (j + 61) 61) as [A|_]; [lia|]. cbn [hi_table]. f_equal. lia.
Qed.

(** ** One header *)
Definition index_of (d : list hfield) (n : bytes) (i : N) : Prop :=
  1 <= i <= 61 + N.of_nat (length d) /\ (i = 15 -> map lower_ascii n = str "accept-").

Lemma static_index d n v k : static_pos n v = Some k ->
  k <= 61 /\ index_of d n k /\ exists e, code_lookup d k = Some e /\ fst e = map lower_ascii n /\ snd e = v.
Proof.
  intros H. apply static_pos_spec in H. destruct H as (j & e & -> & H1 & H2 & H3).
  pose proof (nth_error_Some STATIC_TABLE j) as [L _]. rewrite H1 in L. specialize (L ltac:(discriminate)).
  rewrite static_length in L.
  assert (F : fst e = map lower_ascii n) by (apply static_match_lower; [eapply nth_error_In, H1|exact H2]).
  split; [lia|]. split.
  - split; [lia|]. intros E. assert (j = 14%nat) as -> by lia. vm_compute in H1. injection H1 as <-.
    rewrite <- F. reflexivity.
  - exists e. split; [apply code_lookup_static, H1|]. auto.
Qed.

Lemma encode_header_spec t f : idx_inv t -> sendable f ->
  (forall e, In e (hi_table t) -> name_eq (fst e) (fst f) = true -> map lower_ascii (fst e) = map lower_ascii (fst f)) ->
  exists b d', encode_header t f = Ok (idx_of (hi_max t) d', b) /\
    (d' = hi_table t \/ d' = rfc_add (hi_max t) (hi_table t) f) /\
    field_repr code_lookup (index_of (hi_table t) (fst f)) (index_of (hi_table t) (fst f)) (hi_max t)
      (map lower_field (hi_table t)) b (lower_field f) (map lower_field d').
Proof.
  intros I (Sn & Sv & Ln & Lv) NC. destruct (inv_idx_of t I) as [Et Ts].
  destruct f as [n v]. cbn [fst snd] in *.
  destruct (encode_string_lower_repr n (ascii_ok n Sn) Ln) as (bn & En & Rn).
  destruct (encode_string_repr v Sv Lv) as (bv & Ev & Rv).
  assert (LIT : exists b d', (b <- encode_literal (n, v) true ;; t' <- add_header t (n, v) ;; Ok (t', b)) =
      Ok (idx_of (hi_max t) d', b) /\
    (d' = hi_table t \/ d' = rfc_add (hi_max t) (hi_table t) (n, v)) /\
    field_repr code_lookup (index_of (hi_table t) n) (index_of (hi_table t) n) (hi_max t)
      (map lower_field (hi_table t)) b (lower_field (n, v)) (map lower_field d')).
  { unfold encode_literal. cbn [fst snd]. rewrite En, Ev. cbn [bind]. rewrite add_header_spec by exact I. cbn [bind].
    eexists. eexists. split; [reflexivity|]. split; [right; reflexivity|]. rewrite add_lower.
    unfold lower_field at 2 4. cbn [fst snd]. apply f_inc_new; [apply lower_ascii_utf8, Sn|exact Rn|exact Rv]. }
  unfold encode_header, find_header. destruct (static_named n).
  - destruct (static_pos n v) as [k|] eqn:E1; [|destruct (static_pos n []) as [k|] eqn:E2; [|exact LIT]].
    + destruct (static_index (hi_table t) n v k E1) as (K & X & _).
      destruct (static_index (map lower_field (hi_table t)) n v k E1) as (_ & _ & e & G & F1 & F2).
      exists (encode_indexed k), (hi_table t). split; [rewrite <- Et; reflexivity|]. split; [left; reflexivity|].
      apply (f_indexed _ _ _ _ _ k); [exact X| |].
      * unfold encode_indexed. pose proof (encode_integer_repr k 7 128 ltac:(lia) ltac:(lia)) as R. exact R.
      * rewrite G. unfold lower_field. cbn [fst snd]. rewrite <- F1, <- F2. destruct e; reflexivity.
    + destruct (static_index (hi_table t) n [] k E2) as (K & X & _).
      destruct (static_index (map lower_field (hi_table t)) n [] k E2) as (_ & _ & e & G & F1 & F2).
      unfold encode_indexed_name. cbn [snd]. rewrite Ev. cbn [bind]. rewrite add_header_spec by exact I. cbn [bind].
      eexists. eexists. split; [reflexivity|]. split; [right; reflexivity|]. rewrite add_lower.
      unfold lower_field at 2 4. cbn [fst snd]. rewrite <- F1.
      apply (f_inc_indexed _ _ _ _ _ k); [exact X| | |exact G|exact Rv].
      * pose proof (encode_integer_repr k 6 64 ltac:(lia) ltac:(lia)) as R. exact R.
      * apply encode_integer_length; [lia|]. change (2 ^ 6 - 1 + 2 ^ 28) with 268435519. lia.
  - destruct (dyn_find 0 (hi_table t) n v) as [i|] eqn:E; [|exact LIT].
    apply dyn_find_spec in E. destruct E as (j & e & Ej & H1 & H2 & H3). rewrite N.add_0_l in Ej. subst i.
    pose proof (nth_error_Some (hi_table t) j) as [L _]. rewrite H1 in L. specialize (L ltac:(discriminate)).
    exists (encode_indexed (N.of_nat j + 1 + N.of_nat (length STATIC_TABLE))), (hi_table t).
    split; [rewrite <- Et; reflexivity|]. split; [left; reflexivity|].
    apply (f_indexed _ _ _ _ _ (N.of_nat j + 1 + N.of_nat (length STATIC_TABLE))).
    + assert (L' : (j < @length hfield (hi_table t))%nat) by exact L.
      split; [|rewrite static_length; lia]. rewrite static_length. lia.
    + unfold encode_indexed.
      pose proof (encode_integer_repr (N.of_nat j + 1 + N.of_nat (length STATIC_TABLE)) 7 128 ltac:(lia) ltac:(lia)) as R. exact R.
    + assert (H1' : @nth_error hfield (hi_table t) j = Some e) by exact H1.
      rewrite code_lookup_dyn, nth_error_map, H1'. cbn [option_map]. f_equal. unfold lower_field. cbn [fst snd].
      rewrite H3. f_equal. apply NC; [eapply nth_error_In, H1|exact H2].
Qed.

(** ** Changing the restrictions and the tables *)
Lemma field_repr_impl look look' (iok nok iok' nok' : N -> Prop) max d l f d' :
  (forall i, iok i -> iok' i /\ look' d i = look d i) -> (forall i, nok i -> nok' i /\ look' d i = look d i) ->
  field_repr look iok nok max d l f d' -> field_repr look' iok' nok' max d l f d'.
Proof.
  intros HI HN H. destruct H as [i l f Hi R G|i l e v lv Hi R L G S|n ln v lv U Rn Rv|fl i l e v lv F Hi R L G S|fl n ln v lv F U Rn Rv].
  - destruct (HI i Hi) as [A B]. eapply f_indexed; [exact A|exact R|congruence].
  - destruct (HN i Hi) as [A B]. eapply f_inc_indexed; [exact A|exact R|exact L|congruence|exact S].
  - apply f_inc_new; assumption.
  - destruct (HN i Hi) as [A B]. eapply f_lit_indexed; [exact F|exact A|exact R|exact L|congruence|exact S].
  - apply f_lit_new; assumption.
Qed.

Lemma code_rfc d i : i <> 15 -> code_lookup d i = rfc_lookup d i.
Proof. intros H. unfold code_lookup. rewrite get_from_index_rfc by exact H. reflexivity. Qed.

(** ** Blocks of fields *)
Lemma decode_block_step t l f d' rest :  idx_inv t ->
  field_repr code_lookup (fun i => i < 127) (fun _ => True) (hi_max t) (hi_table t) l f d' ->
  idx_inv (idx_of (hi_max t) d') /\
  decode_headers t (l ++ rest) =
  let '(t2, r) := decode_headers (idx_of (hi_max t) d') rest in (t2, fs <- r ;; Ok (f :: fs)).
Proof.
  intros I H. destruct (decode_one_repr _ t l f d' rest I H) as (T & B & D).
  split; [apply idx_of_inv, T|].
  assert (NE : l ++ rest <> []) by (destruct l; [rewrite blen_nil in B; lia|discriminate]).
  rewrite (decode_headers_field _ _ _ _ _ I NE D), skipn_blen. reflexivity.
Qed.

Lemma decode_block max d l fs d' : total_size d <= max ->
  block_repr code_lookup (fun i => i < 127) (fun _ => True) max d l fs d' ->
  total_size d' <= max /\ decode_headers (idx_of max d) l = (idx_of max d', Ok fs).
Proof.
  intros T H. induction H as [d|d l f d1 ls fs d2 F B IH].
  - split; [exact T|]. apply decode_headers_nil.
  - pose proof (idx_of_inv max d T) as I.
    destruct (decode_block_step (idx_of max d) l f d1 ls I F) as [I1 E].
    destruct (inv_idx_of _ I1) as [_ T1]. cbn [hi_table hi_max idx_of] in T1, E.
    destruct (IH T1) as [T2 E2]. split; [exact T2|]. rewrite E. cbn [hi_max idx_of] in *. rewrite E2. reflexivity.
Qed.

(** ** Entries *)
Lemma lower_name_eq a : forall b, Forall (fun x => x < 128) a -> Forall (fun x => x < 128) b ->
  map lower_ascii a = map lower_ascii b -> name_eq a b = true.
Proof.
  unfold name_eq. induction a as [|x a IH]; intros [|y b] Ha Hb H; try discriminate; [reflexivity|].
  inversion Ha as [|? ? Hx Ha']; inversion Hb as [|? ? Hy Hb']; subst. cbn [eq_bytes_ic]. injection H as H1 H2.
  apply andb_true_iff. split; [|apply IH; assumption].
  apply eq_byte_ic_iff; [lia..|]. unfold lower_ascii in H1.
  destruct ((65 <=? x) && (x <=? 90)) eqn:E1, ((65 <=? y) && (y <=? 90)) eqn:E2; lia.
Qed.

Lemma same_field_iff a b : same_field a b = true <-> lower_field a = lower_field b.
Proof.
  unfold same_field, lower_field. rewrite andb_true_iff, !beq_eq. split.
  - intros [-> ->]. reflexivity.
  - intros H. injection H as H1 H2. auto.
Qed.

Lemma code_static_table : code_static = STATIC_TABLE.
Proof. vm_compute. reflexivity. Qed.
Lemma static_ascii : Forall (fun e : hfield => Forall (fun x => x < 128) (fst e)) STATIC_TABLE.
Proof.
  apply Forall_forall. intros e He.
  assert (A : forallb (fun e : hfield => forallb (fun x => x <? 128) (fst e)) STATIC_TABLE = true) by (vm_compute; reflexivity).
  rewrite forallb_forall in A. specialize (A e He). rewrite forallb_forall in A. apply Forall_forall. intros x Hx.
  apply N.ltb_lt, A, Hx.
Qed.

Lemma static_match_iff e n : In e STATIC_TABLE -> Forall (fun x => x < 128) n ->
  static_match (fst e) n = beq (fst e) (map lower_ascii n).
Proof.
  intros He Hn. apply eq_true_iff_eq. rewrite beq_eq. split; [apply static_match_lower, He|].
  intros H. pose proof static_lower as S. pose proof static_ascii as A. rewrite Forall_forall in S, A.
  unfold static_match. apply andb_true_iff. split.
  - apply beq_eq. change (map lower_ascii (fst e) = map lower_ascii n). rewrite (S e He). exact H.
  - apply lower_name_eq; [apply A, He|exact Hn|]. rewrite (S e He). exact H.
Qed.

Lemma static_named_eq (n v : bytes) : Forall (fun x => x < 128) n -> static_named n = static_name (n, v).
Proof.
  intros Hn. unfold static_named, static_name. rewrite code_static_table. cbn [fst].
  apply eq_true_iff_eq. rewrite !existsb_exists.
  split; intros (e & He & H); exists e; (split; [exact He|]).
  - rewrite <- static_match_iff by assumption. exact H.
  - rewrite static_match_iff by assumption. exact H.
Qed.

Lemma static_pos_none l : forall i n v, static_pos_from i l n v = None ->
  forall e, In e l -> static_match (fst e) n && beq (snd e) v = false.
Proof.
  induction l as [|x l IH]; intros i n v H e He; [destruct He|]. cbn [static_pos_from] in H.
  destruct (static_pos_from (i + 1) l n v) as [k|] eqn:E; [discriminate H|].
  destruct (static_match (fst x) n && beq (snd x) v) eqn:M; [discriminate H|].
  destruct He as [<-|He]; [exact M|]. exact (IH (i + 1) n v E e He).
Qed.

Lemma static_entry_pos (n v : bytes) : Forall (fun x => x < 128) n ->
  static_entry (n, v) = match static_pos n v with Some _ => true | None => false end.
Proof.
  intros Hn. pose proof static_lower as S. rewrite Forall_forall in S. unfold static_entry. rewrite code_static_table.
  destruct (static_pos n v) as [k|] eqn:E.
  - apply static_pos_spec in E. destruct E as (j & e & _ & H1 & H2 & H3). apply existsb_exists. exists e.
    pose proof (nth_error_In _ _ H1) as He. split; [exact He|]. unfold same_field. cbn [fst snd].
    rewrite (S e He), <- static_match_iff by assumption. rewrite H2, H3. cbn [andb]. apply beq_eq. reflexivity.
  - pose proof (static_pos_none _ _ _ _ E) as A. clear E. apply not_true_is_false. intros H. apply existsb_exists in H.
    destruct H as (e & He & H). unfold same_field in H. cbn [fst snd] in H. rewrite (S e He) in H.
    specialize (A e He). rewrite static_match_iff in A by assumption. congruence.
Qed.

Lemma static_entry_name f : static_entry f = true -> static_name f = true.
Proof.
  unfold static_entry, static_name. rewrite code_static_table, !existsb_exists.
  intros (e & He & H). exists e. split; [exact He|]. unfold same_field in H. apply andb_true_iff in H. destruct H as [H _].
  pose proof static_lower as S. rewrite Forall_forall in S. rewrite <- (S e He). exact H.
Qed.

(** What the search of the dynamic table finds. *)
Definition unconfused (d : list hfield) (f : hfield) : Prop :=
  Forall (fun e => Forall (fun x => x < 128) (fst e)) d /\
  forall e, In e d -> name_eq (fst e) (fst f) = true -> map lower_ascii (fst e) = map lower_ascii (fst f).

Lemma dyn_find_first d (n v : bytes) : Forall (fun x => x < 128) n -> unconfused d (n, v) -> forall i,
  match dyn_find i d n v with
  | None => forall e, In e d -> same_field e (n, v) = false
  | Some k => exists j e, k = i + N.of_nat j /\ nth_error d j = Some e /\ same_field e (n, v) = true /\
      forall e', In e' (firstn j d) -> same_field e' (n, v) = false
  end.
Proof.
  intros Hn. induction d as [|x d IH]; intros [A C] i.
  - intros e [].
  - inversion A as [|? ? Ax Ad]; subst. cbn [dyn_find].
    assert (M : name_eq (fst x) n && beq (snd x) v = same_field x (n, v)).
    { unfold same_field. cbn [fst snd]. f_equal. apply eq_true_iff_eq. rewrite beq_eq. split.
      - apply (C x). left. reflexivity.
      - apply lower_name_eq; assumption. }
    rewrite M. destruct (same_field x (n, v)) eqn:E.
    + exists 0%nat, x. split; [lia|]. split; [reflexivity|]. split; [exact E|]. intros e' [].
    + assert (U : unconfused d (n, v)) by (split; [exact Ad|intros e He; apply C; right; exact He]).
      specialize (IH U (i + 1)). destruct (dyn_find (i + 1) d n v) as [k|].
      * destruct IH as (j & e & -> & H1 & H2 & H3). exists (S j), e. split; [lia|]. split; [exact H1|]. split; [exact H2|].
        cbn [firstn]. intros e' [<-|He']; [exact E|]. apply H3, He'.
      * intros e [<-|He]; [exact E|]. apply IH, He.
Qed.

Lemma near_index d f j e : static_name f = false -> nth_error d j = Some e -> same_field e f = true ->
  (forall e', In e' (firstn j d) -> same_field e' f = false) -> (near d f <-> (j < 65)%nat).
Proof.
  intros Sf Hj He Hf. split.
  - intros [A|[A|(e' & H1 & H2)]]; [congruence|rewrite (A e (nth_error_In _ _ Hj)) in He; discriminate He|].
    destruct (Nat.ltb_spec j 65) as [|L]; [assumption|]. exfalso.
    assert (I : In e' (firstn j d)).
    { replace j with (65 + (j - 65))%nat by lia. rewrite <- (firstn_skipn 65 d) at 1. rewrite firstn_app.
      apply in_or_app. left. rewrite firstn_firstn. replace (Nat.min (65 + (j - 65)) 65) with 65%nat by lia. exact H1. }
    rewrite (Hf e' I) in H2. discriminate H2.
  - intros L. right. right. exists e. split; [|exact He]. apply (nth_error_In _ j).
    rewrite <- (firstn_skipn 65 d) in Hj. rewrite nth_error_app1 in Hj; [exact Hj|]. rewrite firstn_length.
    pose proof (nth_error_Some (firstn 65 d ++ skipn 65 d) j) as [X _]. rewrite Hj in X. specialize (X ltac:(discriminate)).
    rewrite firstn_skipn in X. lia.
Qed.

(** ** One field, by its place in the table *)
Lemma encode_field t f : idx_inv t -> sendable f -> unconfused (hi_table t) f ->
  exists b, encode_header t f = Ok (idx_of (hi_max t) (after_field (hi_max t) (hi_table t) f), b) /\
    (near (hi_table t) f ->
     field_repr code_lookup (fun i => i < 127) (fun _ => True) (hi_max t)
       (map lower_field (hi_table t)) b (lower_field f) (map lower_field (after_field (hi_max t) (hi_table t) f))) /\
    (~ near (hi_table t) f -> exists j, b = encode_indexed (N.of_nat j + 62) /\ (65 <= j < length (hi_table t))%nat /\
       after_field (hi_max t) (hi_table t) f = hi_table t).
Proof.
  intros I (Sn & Sv & Ln & Lv) UC. destruct (inv_idx_of t I) as [Et Ts].
  destruct f as [n v]. cbn [fst snd] in *.
  destruct (encode_string_lower_repr n (ascii_ok n Sn) Ln) as (bn & En & Rn).
  destruct (encode_string_repr v Sv Lv) as (bv & Ev & Rv).
  assert (LIT : exists b, (b <- encode_literal (n, v) true ;; t' <- add_header t (n, v) ;; Ok (t', b)) =
      Ok (idx_of (hi_max t) (rfc_add (hi_max t) (hi_table t) (n, v)), b) /\
    field_repr code_lookup (fun i => i < 127) (fun _ => True) (hi_max t)
      (map lower_field (hi_table t)) b (lower_field (n, v)) (map lower_field (rfc_add (hi_max t) (hi_table t) (n, v)))).
  { unfold encode_literal. cbn [fst snd]. rewrite En, Ev. cbn [bind]. rewrite add_header_spec by exact I. cbn [bind].
    eexists. split; [reflexivity|]. rewrite add_lower.
    unfold lower_field at 2 4. cbn [fst snd]. apply f_inc_new; [apply lower_ascii_utf8, Sn|exact Rn|exact Rv]. }
  unfold encode_header, find_header, after_field. rewrite (static_named_eq n v Sn), (static_entry_pos n v Sn).
  destruct (static_name (n, v)) eqn:SN.
  - cbn [negb andb]. destruct (static_pos n v) as [k|] eqn:E1; [|destruct (static_pos n []) as [k|] eqn:E2].
    + destruct (static_index (map lower_field (hi_table t)) n v k E1) as (K & _ & e & G & F1 & F2).
      exists (encode_indexed k). split; [rewrite <- Et; reflexivity|]. split; [|intros NN; exfalso; apply NN; left; exact SN].
      intros _. apply (f_indexed _ _ _ _ _ k); [lia| |].
      * unfold encode_indexed. pose proof (encode_integer_repr k 7 128 ltac:(lia) ltac:(lia)) as R. exact R.
      * rewrite G. unfold lower_field. cbn [fst snd]. rewrite <- F1, <- F2. destruct e; reflexivity.
    + destruct (static_index (map lower_field (hi_table t)) n [] k E2) as (K & _ & e & G & F1 & F2).
      unfold encode_indexed_name. cbn [snd]. rewrite Ev. cbn [bind]. rewrite add_header_spec by exact I. cbn [bind].
      eexists. split; [reflexivity|]. split; [|intros NN; exfalso; apply NN; left; exact SN].
      intros _. rewrite add_lower.
      unfold lower_field at 2 4. cbn [fst snd]. rewrite <- F1.
      apply (f_inc_indexed _ _ _ _ _ k); [exact Logic.I| | |exact G|exact Rv].
      * pose proof (encode_integer_repr k 6 64 ltac:(lia) ltac:(lia)) as R. exact R.
      * apply encode_integer_length; [lia|]. change (2 ^ 6 - 1 + 2 ^ 28) with 268435519. lia.
    + destruct LIT as (b & E & R). exists b. split; [exact E|]. split; [intros _; exact R|intros NN; exfalso; apply NN; left; exact SN].
  - assert (SP : static_pos n v = None).
    { destruct (static_pos n v) as [k|] eqn:E; [|reflexivity]. exfalso.
      assert (X : static_entry (n, v) = true) by (rewrite (static_entry_pos n v Sn), E; reflexivity).
      apply static_entry_name in X. congruence. }
    rewrite SP. cbn [negb andb]. pose proof (dyn_find_first (hi_table t) n v Sn UC 0) as DF.
    destruct (dyn_find 0 (hi_table t) n v) as [i|].
    + destruct DF as (j & e & Ej & H1 & H2 & H3). rewrite N.add_0_l in Ej. subst i.
      pose proof (near_index _ _ _ _ SN H1 H2 H3) as NI.
      assert (X : existsb (fun e0 => same_field e0 (n, v)) (hi_table t) = true).
      { apply existsb_exists. exists e. split; [eapply nth_error_In, H1|exact H2]. }
      rewrite X. rewrite <- Et.
      pose proof (@nth_error_Some hfield (hi_table t) j) as [L _]. rewrite H1 in L. specialize (L ltac:(discriminate)).
      eexists. split; [reflexivity|]. split.
      * intros NR. apply NI in NR.
        apply (f_indexed _ _ _ _ _ (N.of_nat j + 1 + N.of_nat (length STATIC_TABLE))).
        -- rewrite static_length. lia.
        -- unfold encode_indexed.
           pose proof (encode_integer_repr (N.of_nat j + 1 + N.of_nat (length STATIC_TABLE)) 7 128 ltac:(lia) ltac:(lia)) as R. exact R.
        -- assert (H1' : @nth_error hfield (hi_table t) j = Some e) by exact H1.
           rewrite code_lookup_dyn, nth_error_map, H1'. cbn [option_map]. f_equal. apply same_field_iff, H2.
      * intros NN. exists j. split; [rewrite static_length; f_equal; lia|]. split; [|reflexivity]. split; [|exact L].
        destruct (Nat.ltb_spec j 65) as [A|A]; [|exact A]. exfalso. apply NN, NI, A.
    + assert (X : existsb (fun e0 => same_field e0 (n, v)) (hi_table t) = false).
      { apply not_true_is_false. intros X. apply existsb_exists in X. destruct X as (e & He & X). rewrite (DF e He) in X. discriminate X. }
      rewrite X. destruct LIT as (b & E & R). exists b. split; [exact E|]. split; [intros _; exact R|].
      intros NN. exfalso. apply NN. right. left. exact DF.
Qed.

(** The encoder's own states, abstractly: [d] is the table of an encoder with maximum [max], which is
    still to send [evs]. *)
Definition run_ok (J : N -> list hfield -> list hevent -> Prop) : Prop :=
  (forall max d f fs evs, J max d (EvBlock (f :: fs) :: evs) ->
     sendable f /\ near d f /\ unconfused d f /\ J max (after_field max d f) (EvBlock fs :: evs)) /\
  (forall max d evs, J max d (EvBlock [] :: evs) -> J max d evs) /\
  (forall max d m evs, J max d (EvMax m :: evs) -> J m (newest m d) evs).

Lemma after_field_cases max d f : after_field max d f = d \/ after_field max d f = rfc_add max d f.
Proof. unfold after_field. destruct (static_entry f); [auto|]. destruct (negb _ && _); auto. Qed.
Lemma after_field_inv t f : idx_inv t -> idx_inv (idx_of (hi_max t) (after_field (hi_max t) (hi_table t) f)).
Proof.
  intros I. destruct (inv_idx_of t I) as [Et Ts].
  destruct (after_field_cases (hi_max t) (hi_table t) f) as [->| ->]; [apply idx_of_inv, Ts|apply rfc_add_inv].
Qed.

Definition paired (te td : hindex) : Prop :=
  idx_inv te /\ td = idx_of (hi_max te) (map lower_field (hi_table te)).

Lemma block_sync J fs : run_ok J -> forall te td evs, paired te td -> J (hi_max te) (hi_table te) (EvBlock fs :: evs) ->
  exists te' b, encode_headers te fs = Ok (te', b) /\ hi_max te' = hi_max te /\ idx_inv te' /\
    J (hi_max te') (hi_table te') evs /\
    decode_headers td b = (idx_of (hi_max te') (map lower_field (hi_table te')), Ok (map lower_field fs)).
Proof.
  intros (J1 & J2 & J3). induction fs as [|f fs IH]; intros te td evs [I ->] H.
  - exists te, []. split; [reflexivity|]. split; [reflexivity|]. split; [exact I|]. split; [apply J2, H|].
    apply decode_headers_nil.
  - destruct (J1 _ _ _ _ _ H) as (S & NR & UC & K).
    destruct (encode_field te f I S UC) as (b & E & R & _). specialize (R NR). pose proof (after_field_inv te f I) as I'.
    set (d' := after_field (hi_max te) (hi_table te) f) in *.
    destruct (IH (idx_of (hi_max te) d') (idx_of (hi_max te) (map lower_field d')) evs) as (te2 & b2 & E2 & M2 & I2 & K2 & D2).
    { split; [exact I'|reflexivity]. }
    { exact K. }
    exists te2, (b ++ b2). split; [cbn [encode_headers]; rewrite E; cbn [bind]; rewrite E2; reflexivity|].
    split; [exact M2|]. split; [exact I2|]. split; [exact K2|].
    assert (ID : idx_inv (idx_of (hi_max te) (map lower_field (hi_table te)))).
    { apply idx_of_inv. rewrite total_lower. apply inv_idx_of, I. }
    destruct (decode_block_step (idx_of (hi_max te) (map lower_field (hi_table te))) b (lower_field f)
      (map lower_field d') b2 ID R) as [_ DE].
    rewrite DE. cbn [hi_max idx_of]. rewrite D2. reflexivity.
Qed.

Lemma exchange_sync J evs : run_ok J -> forall te td, paired te td -> J (hi_max te) (hi_table te) evs ->
  exists te' td', exchange te td evs = Ok (te', td', map (map lower_field) (sent evs)) /\ paired te' td'.
Proof.
  intros RJ. induction evs as [|[fs|m] evs IH]; intros te td P H.
  - exists te, td. split; [reflexivity|exact P].
  - destruct (block_sync J fs RJ te td evs P H) as (te1 & b & E & M & I & K & D).
    destruct (IH te1 _ (conj I eq_refl) K) as (te2 & td2 & E2 & P2).
    exists te2, td2. split; [|exact P2]. cbn [exchange sent map]. rewrite E. cbn [bind]. rewrite D. cbn [bind].
    rewrite E2. reflexivity.
  - destruct P as [I ->]. destruct RJ as (J1 & J2 & J3).
    assert (ID : idx_inv (idx_of (hi_max te) (map lower_field (hi_table te)))).
    { apply idx_of_inv. rewrite total_lower. apply inv_idx_of, I. }
    destruct (IH (idx_of m (newest m (hi_table te))) (idx_of m (newest m (map lower_field (hi_table te))))) as (te2 & td2 & E2 & P2).
    { split; [apply newest_inv|]. cbn [hi_max hi_table idx_of]. rewrite newest_lower. reflexivity. }
    { cbn [hi_max hi_table idx_of]. apply J3 with (max := hi_max te). exact H. }
    exists te2, td2. split; [|exact P2]. cbn [exchange sent].
    rewrite (set_max_spec te m I), (set_max_spec _ m ID). cbn [bind hi_max hi_table idx_of]. exact E2.
Qed.

(** ** Three conditions that keep the indices below 127 *)
Definition pool_ok (pool : list hfield) : Prop :=
  Forall sendable pool /\ forall f g, In f pool -> In g pool -> clash_free (fst f) (fst g).

Lemma pool_names pool f e : pool_ok pool -> In f pool -> In e pool ->
  name_eq (fst e) (fst f) = true -> map lower_ascii (fst e) = map lower_ascii (fst f).
Proof.
  intros [S C] Hf He. rewrite Forall_forall in S. pose proof (S f Hf) as (Sf & _). pose proof (S e He) as (Se & _).
  apply clash_ascii; auto.
Qed.

Lemma total_count k d : Forall (fun f => k <= size_of f) d -> N.of_nat (length d) * k <= total_size d.
Proof.
  induction 1 as [|f d Hf _ IH]; [cbn; lia|]. cbn [length total_size fold_right]. fold (total_size d). nia.
Qed.

Lemma newest_length max l : (length (newest max l) <= length l)%nat.
Proof.
  revert max. induction l as [|f l IH]; intros max; [cbn; lia|]. cbn [newest]. destruct (_ <=? _); cbn [length]; [|lia].
  specialize (IH (max - size_of f)). lia.
Qed.

Definition by_size (pool : list hfield) (k max : N) (d : list hfield) (evs : list hevent) : Prop :=
  max < 66 * k /\ Forall (fun m => m < 66 * k) (maxima evs) /\ total_size d <= max /\
  incl d pool /\ incl (concat (sent evs)) pool.
Definition by_count (pool : list hfield) (max : N) (d : list hfield) (evs : list hevent) : Prop :=
  (length d + length (concat (sent evs)) <= 66)%nat /\
  incl d pool /\ incl (concat (sent evs)) pool.

Lemma add_incl max d f pool : In f pool -> incl d pool -> incl (rfc_add max d f) pool.
Proof. intros Hf Hd g Hg. apply newest_incl in Hg. destruct Hg as [<-|Hg]; auto. Qed.

Lemma pool_unconfused pool d f : pool_ok pool -> incl d pool -> In f pool -> unconfused d f.
Proof.
  intros P D F. split.
  - apply Forall_forall. intros e He. destruct P as [S _]. rewrite Forall_forall in S. apply (S e (D e He)).
  - intros e He. apply (pool_names pool); auto.
Qed.
Lemma after_field_incl max d f pool : In f pool -> incl d pool -> incl (after_field max d f) pool.
Proof. intros Hf Hd. destruct (after_field_cases max d f) as [->| ->]; [exact Hd|apply add_incl; assumption]. Qed.
Lemma short_near d f : N.of_nat (length d) <= 65 -> near d f.
Proof.
  intros L. right. destruct (existsb (fun e => same_field e f) d) eqn:E.
  - right. rewrite firstn_all2 by lia. apply existsb_exists in E. exact E.
  - left. intros e He. apply not_true_is_false. intros X.
    assert (Y : existsb (fun e => same_field e f) d = true) by (apply existsb_exists; exists e; auto). congruence.
Qed.
Definition by_place (pool : list hfield) (max : N) (d : list hfield) (evs : list hevent) : Prop :=
  near_from (max, d) evs /\ incl d pool /\ incl (concat (sent evs)) pool.
Lemma by_place_ok pool : pool_ok pool -> run_ok (by_place pool).
Proof.
  intros P. split; [|split].
  - intros max d f fs evs (NF & D & E). cbn [sent concat app near_from near_block fst snd after_event fold_left] in *.
    destruct NF as [[N1 N2] N3]. assert (Hf : In f pool) by (apply E; left; reflexivity).
    split; [destruct P as [P _]; rewrite Forall_forall in P; apply P, Hf|]. split; [exact N1|].
    split; [apply (pool_unconfused pool); assumption|]. split; [split; [exact N2|exact N3]|].
    split; [apply after_field_incl; assumption|]. intros g Hg. apply E. right. exact Hg.
  - intros max d evs ((_ & NF) & D & E). split; [exact NF|]. split; [exact D|exact E].
  - intros max d m evs ((_ & NF) & D & E). split; [exact NF|]. split; [|exact E].
    intros g Hg. apply newest_incl in Hg. auto.
Qed.

Lemma by_size_ok pool k : pool_ok pool -> Forall (fun f => k <= size_of f) pool -> run_ok (by_size pool k).
Proof.
  intros P K. split; [|split].
  - intros max d f fs evs (M & Ms & T & D & E). cbn [sent maxima concat app] in *.
    assert (Hf : In f pool) by (apply E; left; reflexivity).
    assert (E' : incl (fs ++ concat (sent evs)) pool) by (intros g Hg; apply E; right; exact Hg).
    split; [destruct P as [P _]; rewrite Forall_forall in P; apply P, Hf|].
    split.
    { apply short_near. assert (Kd : Forall (fun f => k <= size_of f) d).
      { apply Forall_forall. intros g Hg. rewrite Forall_forall in K. apply K, D, Hg. }
      pose proof (total_count k d Kd). nia. }
    split; [apply (pool_unconfused pool); assumption|].
    unfold by_size. cbn [sent maxima concat]. split; [exact M|]. split; [exact Ms|].
    split; [destruct (after_field_cases max d f) as [->| ->]; [exact T|apply newest_size]|].
    split; [apply after_field_incl; assumption|exact E'].
  - intros max d evs H. exact H.
  - intros max d m evs (M & Ms & T & D & E). cbn [sent maxima] in *. inversion Ms as [|? ? M1 M2]; subst.
    split; [exact M1|]. split; [exact M2|]. split; [apply newest_size|]. split; [|exact E].
    intros g Hg. apply newest_incl in Hg. auto.
Qed.

Lemma by_count_ok pool : pool_ok pool -> run_ok (by_count pool).
Proof.
  intros P. split; [|split].
  - intros max d f fs evs (L & D & E). cbn [sent concat app length] in *.
    assert (Hf : In f pool) by (apply E; left; reflexivity).
    assert (E' : incl (fs ++ concat (sent evs)) pool) by (intros g Hg; apply E; right; exact Hg).
    split; [destruct P as [P _]; rewrite Forall_forall in P; apply P, Hf|].
    split; [apply short_near; lia|].
    split; [apply (pool_unconfused pool); assumption|].
    unfold by_count. cbn [sent concat]. split; [|split; [apply after_field_incl; assumption|exact E']].
    pose proof (newest_length max (f :: d)) as N1. cbn [length] in N1.
    destruct (after_field_cases max d f) as [->| ->]; unfold rfc_add; lia.
  - intros max d evs H. exact H.
  - intros max d m evs (L & D & E). cbn [sent] in *.
    split; [pose proof (newest_length m d); lia|]. split; [|exact E].
    intros g Hg. apply newest_incl in Hg. auto.
Qed.

(** The other two conditions imply the first. *)
Lemma run_near J : run_ok J -> forall evs max d, J max d evs -> near_from (max, d) evs.
Proof.
  intros (J1 & J2 & J3). induction evs as [|[fs|m] evs IH]; intros max d H; [exact Logic.I| |].
  - cbn [near_from fst snd after_event].
    revert d H. induction fs as [|f fs IHf]; intros d H; cbn [near_block fold_left].
    + split; [exact Logic.I|]. apply IH, J2, H.
    + destruct (J1 _ _ _ _ _ H) as (_ & NR & _ & K). destruct (IHf _ K) as [A B]. split; [split; [exact NR|exact A]|exact B].
  - cbn [near_from fst snd after_event]. split; [exact Logic.I|]. apply IH. apply J3 with (max := max), H.
Qed.

Lemma fresh_pair m : paired (hi_with_size m) (hi_with_size m).
Proof. split; [split; [reflexivity|cbn; lia]|reflexivity]. Qed.

Lemma sync_by_size m evs k : pool_ok (concat (sent evs)) -> Forall (fun f => k <= size_of f) (concat (sent evs)) ->
  m < 66 * k -> Forall (fun m => m < 66 * k) (maxima evs) ->
  exists te td, exchange (hi_with_size m) (hi_with_size m) evs = Ok (te, td, map (map lower_field) (sent evs)) /\
    hi_table td = map lower_field (hi_table te) /\ hi_size td = hi_size te /\ hi_max td = hi_max te.
Proof.
  intros P K M Ms.
  destruct (exchange_sync _ evs (by_size_ok _ k P K) _ _ (fresh_pair m)) as (te & td & E & I & ->).
  { split; [exact M|]. split; [exact Ms|]. split; [cbn; lia|]. split; [intros g []|apply incl_refl]. }
  exists te. eexists. split; [exact E|]. split; [reflexivity|]. split; [|reflexivity].
  cbn [hi_size idx_of]. rewrite total_lower. symmetry. apply I.
Qed.

Lemma sync_by_count m evs : pool_ok (concat (sent evs)) -> (length (concat (sent evs)) <= 66)%nat ->
  exists te td, exchange (hi_with_size m) (hi_with_size m) evs = Ok (te, td, map (map lower_field) (sent evs)) /\
    hi_table td = map lower_field (hi_table te) /\ hi_size td = hi_size te /\ hi_max td = hi_max te.
Proof.
  intros P L.
  destruct (exchange_sync _ evs (by_count_ok _ P) _ _ (fresh_pair m)) as (te & td & E & I & ->).
  { split; [exact L|]. split; [intros g []|apply incl_refl]. }
  exists te. eexists. split; [exact E|]. split; [reflexivity|]. split; [|reflexivity].
  cbn [hi_size idx_of]. rewrite total_lower. symmetry. apply I.
Qed.

(** HTTP/2 names never clash and are not changed. *)
Lemma h2_clash_free a b : Forall h2_char a -> Forall h2_char b -> clash_free a b.
Proof.
  intros Ha Hb i x y Hx Hy D. exfalso. rewrite Forall_forall in Ha, Hb.
  specialize (Ha x (nth_error_In _ _ Hx)). specialize (Hb y (nth_error_In _ _ Hy)).
  assert (G : forall x y, h2_char x -> h2_char y -> x = y + 32 -> False).
  { clear. intros x y Hx Hy E.
    assert (K : forall b, h2_char b -> b < 127 /\ 33 <= b /\ ~ upper b /\ b <> 94).
    { intros b [(T & U & C)| ->]; [|split; [lia|split; [lia|split; [unfold upper; lia|lia]]]].
      pose proof (tchar_lt _ T). split; [lia|]. split; [lia|auto]. }
    pose proof (K x Hx). pose proof (K y Hy).
    destruct Hx as [(Tx & Ux & Cx)| ->]; [|lia].
    destruct Hy as [(Ty & Uy & Cy)| ->]; [|unfold upper in *; lia].
    unfold upper in *. destruct Ty as [[W|W]|[W|W]]; unfold upper, lower, digit in W; try lia.
    cbn in W. repeat destruct W as [<-|W]; lia. }
  destruct D as [D|D]; [apply (G x y)|apply (G y x)]; assumption.
Qed.

Lemma h2_lower n : Forall h2_char n -> map lower_ascii n = n.
Proof.
  induction 1 as [|b n Hb _ IH]; [reflexivity|]. cbn [map]. rewrite IH. f_equal. unfold lower_ascii.
  destruct ((65 <=? b) && (b <=? 90)) eqn:E; [|reflexivity].
  destruct Hb as [(_ & U & _)| ->]; [unfold upper in U; lia|discriminate E].
Qed.
Lemma h2_ascii n : Forall h2_char n -> Forall (fun b => b < 128) n.
Proof. apply Forall_impl. intros b [(T & _)| ->]; [apply tchar_lt in T; lia|lia]. Qed.

(** ** Histories of a table *)
Lemma t_step_spec t e : idx_inv t ->
  exists t', t_step (Ok t) e = Ok t' /\ idx_inv t' /\ (hi_max t', hi_table t') = rfc_step (hi_max t, hi_table t) e.
Proof.
  intros I. destruct e as [f|m]; unfold t_step; cbn [bind].
  - rewrite add_header_spec by exact I. eexists. split; [reflexivity|]. split; [apply rfc_add_inv|reflexivity].
  - rewrite set_max_spec by exact I. eexists. split; [reflexivity|]. split; [apply newest_inv|reflexivity].
Qed.
Lemma t_run_from l : forall t, idx_inv t ->
  exists t', fold_left t_step l (Ok t) = Ok t' /\ idx_inv t' /\
    (hi_max t', hi_table t') = fold_left rfc_step l (hi_max t, hi_table t).
Proof.
  induction l as [|e l IH]; intros t I; [exists t; auto|].
  destruct (t_step_spec t e I) as (t1 & E & I1 & R). cbn [fold_left]. rewrite E, <- R. apply IH, I1.
Qed.
Lemma fresh_inv m : idx_inv (hi_with_size m).
Proof. apply fresh_pair. Qed.
Lemma t_run_spec m l : exists t, t_run m l = Ok t /\ idx_inv t /\ (hi_max t, hi_table t) = rfc_run m l.
Proof. apply t_run_from, fresh_inv. Qed.

Lemma newest_longest max l : exists rest, l = newest max l ++ rest /\
  match rest with [] => True | x :: _ => max < total_size (newest max l ++ [x]) end.
Proof.
  revert max. induction l as [|f l IH]; intros max; [exists []; split; [reflexivity|exact Logic.I]|].
  cbn [newest]. destruct (N.leb_spec (size_of f) max) as [L|L].
  - destruct (IH (max - size_of f)) as (rest & E & H). exists rest. cbn [app]. split; [f_equal; exact E|].
    destruct rest as [|x rest]; [exact H|]. cbn [total_size fold_right].
    fold (total_size (newest (max - size_of f) l ++ [x])). lia.
  - exists (f :: l). split; [reflexivity|]. cbn. lia.
Qed.

Lemma reach_inv t : decoder_reach t -> idx_inv t.
Proof.
  induction 1 as [m|t m t' _ IH E|t b _ IH].
  - apply fresh_inv.
  - rewrite set_max_spec in E by exact IH. injection E as <-. apply newest_inv.
  - apply decode_headers_total, IH.
Qed.

(** ** Termination *)
Lemma size_update_octet x : x < 256 -> (representation_of x = RSizeUpdate <-> 32 <= x < 64).
Proof.
  intros H. rewrite representation_spec by exact H.
  destruct (N.leb_spec 128 x); [split; [discriminate|lia]|]. destruct (N.leb_spec 64 x); [split; [discriminate|lia]|].
  destruct (N.leb_spec 32 x); [split; [lia|reflexivity]|]. destruct (N.leb_spec 16 x); split; try discriminate; lia.
Qed.

Lemma decode_diverge_iff t buf : idx_inv t -> bytes_ok buf ->
  (snd (decode_headers t buf) = Diverge <->
   exists pre x post t' fs, buf = pre ++ x :: post /\ 32 <= x < 64 /\ decode_headers t pre = (t', Ok fs)).
Proof.
  intros I B. split.
  - intros H. destruct (decode_headers_total t buf I) as (_ & _ & T). rewrite H in T.
    destruct T as (pre & x & post & t' & fs & E & R & D). exists pre, x, post, t', fs. split; [exact E|]. split; [|exact D].
    apply size_update_octet; [|exact R]. subst buf. apply bytes_ok_app in B. destruct B as [_ B].
    apply bytes_ok_cons in B. apply B.
  - intros (pre & x & post & t' & fs & -> & R & D).
    destruct (decode_headers_app t pre (x :: post) I t' fs D) as (I' & _ & E). rewrite E.
    rewrite decode_headers_size; [reflexivity|discriminate|]. cbn [hd]. apply size_update_octet; [lia|exact R].
Qed.

Lemma decode_outcomes t buf : idx_inv t -> snd (decode_headers t buf) <> Panic /\
  forall e, snd (decode_headers t buf) = Err e -> hpack_error e.
Proof.
  intros I. destruct (decode_headers_total t buf I) as (_ & _ & T).
  destruct (snd (decode_headers t buf)); split; try discriminate; try contradiction.
  intros e0 [= <-]. exact T.
Qed.

(** Every field takes at least one octet. *)
Lemma decode_count t buf : idx_inv t -> forall fs, snd (decode_headers t buf) = Ok fs -> (length fs <= length buf)%nat.
Proof.
  intros I. revert t buf I.
  apply (decode_headers_ind (fun t buf => forall fs, snd (decode_headers t buf) = Ok fs -> (length fs <= length buf)%nat)).
  - intros t I fs [= <-]. cbn. lia.
  - intros t buf t' f k I I' M NE K1 K2 E IH fs H. rewrite (decode_headers_field _ _ _ _ _ I NE E) in H.
    destruct (decode_headers t' (skipn (N.to_nat k) buf)) as [t2 r]. cbn [snd] in *.
    destruct r as [l| | |]; try discriminate H. injection H as <-. specialize (IH l eq_refl).
    pose proof (skipn_shorter buf k K1 NE). cbn [length]. lia.
  - intros t buf I NE R fs H. rewrite (decode_headers_size _ _ NE R) in H. discriminate H.
  - intros t buf e I NE E He fs H. rewrite (decode_headers_err _ _ _ NE E) in H. discriminate H.
Qed.

(** ** RFC 7541 blocks *)
Lemma block_repr_impl look look' (iok nok iok' nok' : N -> Prop) max d l fs d' :
  (forall d i, iok i -> iok' i /\ look' d i = look d i) -> (forall d i, nok i -> nok' i /\ look' d i = look d i) ->
  block_repr look iok nok max d l fs d' -> block_repr look' iok' nok' max d l fs d'.
Proof.
  intros HI HN H. induction H as [d|d l f d1 ls fs d2 F B IH]; [constructor|].
  econstructor; [|exact IH]. eapply field_repr_impl; [| |exact F]; auto.
Qed.

Lemma decode_rfc_block max d l fs d' : total_size d <= max ->
  block_repr rfc_lookup (fun i => i < 127 /\ i <> 15) (fun i => i <> 15) max d l fs d' ->
  total_size d' <= max /\ decode_headers (idx_of max d) l = (idx_of max d', Ok fs).
Proof.
  intros T H. apply decode_block; [exact T|]. eapply block_repr_impl; [| |exact H]; cbn beta.
  - intros d0 i [A B]. split; [exact A|apply code_rfc, B].
  - intros d0 i A. split; [exact Logic.I|apply code_rfc, A].
Qed.

Lemma encode_rfc_block fs : forall t, idx_inv t -> Forall sendable fs ->
  (forall f, In f fs -> map lower_ascii (fst f) <> str "accept-") ->
  (forall f g, In f fs -> In g (hi_table t ++ fs) -> name_eq (fst g) (fst f) = true -> map lower_ascii (fst g) = map lower_ascii (fst f)) ->
  exists t' b, encode_headers t fs = Ok (t', b) /\ hi_max t' = hi_max t /\ idx_inv t' /\
    rfc_block (hi_max t) (map lower_field (hi_table t)) b (map lower_field fs) (map lower_field (hi_table t')).
Proof.
  induction fs as [|f fs IH]; intros t I S A C.
  - exists t, []. split; [reflexivity|]. split; [reflexivity|]. split; [exact I|]. constructor.
  - inversion S as [|? ? Sf Sfs]; subst.
    destruct (encode_header_spec t f I Sf) as (b & d' & E & D & R).
    { intros e He. apply C; [left; reflexivity|apply in_or_app; left; exact He]. }
    assert (I' : idx_inv (idx_of (hi_max t) d')).
    { destruct (inv_idx_of t I) as [Et Ts]. destruct D as [->| ->]; [apply idx_of_inv, Ts|apply rfc_add_inv]. }
    destruct (IH (idx_of (hi_max t) d') I' Sfs) as (t2 & b2 & E2 & M2 & I2 & R2).
    { intros g Hg. apply A. right. exact Hg. }
    { intros g h Hg Hh. apply C; [right; exact Hg|]. cbn [hi_table idx_of] in Hh. apply in_app_or in Hh.
      apply in_or_app. destruct Hh as [Hh|Hh]; [|right; right; exact Hh].
      destruct D as [->| ->]; [left; exact Hh|]. apply newest_incl in Hh. destruct Hh as [<-|Hh]; [right; left; reflexivity|left; exact Hh]. }
    exists t2, (b ++ b2). split; [cbn [encode_headers]; rewrite E; cbn [bind]; rewrite E2; reflexivity|].
    split; [exact M2|]. split; [exact I2|]. cbn [map]. eapply b_cons; [|exact R2].
    eapply field_repr_impl; [| |exact R]; intros i (_ & Hi);
      (split; [exact Logic.I|]); symmetry; apply code_rfc; intros E15; apply (A f (or_introl eq_refl)), Hi, E15.
Qed.

(** ** The static table *)
Lemma static_encoded t i f : 1 <= i <= 61 -> i <> 15 -> rfc_lookup [] i = Some f ->
  encode_header t f = Ok (t, [128 + i]).
Proof.
  intros Hi N15 H.
  assert (A : forallb (fun i => (i =? 15) || match rfc_lookup [] i with
      | Some f => static_named (fst f) && match static_pos (fst f) (snd f) with Some k => k =? i | None => false end &&
                  beq (encode_indexed i) [128 + i]
      | None => false end) (map N.of_nat (seq 1 61)) = true) by (vm_compute; reflexivity).
  rewrite forallb_forall in A. specialize (A i).
  rewrite H in A. assert (In i (map N.of_nat (seq 1 61))) as Hin.
  { replace i with (N.of_nat (N.to_nat i)) by lia. apply List.in_map, in_seq. lia. }
  specialize (A Hin). destruct (N.eqb_spec i 15) as [|_]; [contradiction|]. cbn [orb] in A.
  apply andb_true_iff in A. destruct A as [A A3]. apply andb_true_iff in A. destruct A as [A1 A2].
  destruct f as [n v]. cbn [fst snd] in *. unfold encode_header, find_header. rewrite A1.
  destruct (static_pos n v) as [k|]; [|discriminate A2]. apply N.eqb_eq in A2. subst k.
  apply beq_eq in A3. rewrite A3. reflexivity.
Qed.

Lemma search_sound t n v i w : find_header t (n, v) = Some (i, w) ->
  exists e, get_from_index t i = Some e /\ (w = true -> snd e = v) /\
    (i <= 61 -> fst e = map lower_ascii n) /\ (61 < i -> w = true /\ name_eq (fst e) n = true /\ In e (hi_table t)).
Proof.
  unfold find_header. destruct (static_named n).
  - destruct (static_pos n v) as [k|] eqn:E1; [|destruct (static_pos n []) as [k|] eqn:E2; [|discriminate]]; intros [= <- <-].
    + destruct (static_index (hi_table t) n v k E1) as (K & _ & e & G & F1 & F2). exists e.
      rewrite code_lookup_idx in G. split; [exact G|]. split; [auto|]. split; [auto|lia].
    + destruct (static_index (hi_table t) n [] k E2) as (K & _ & e & G & F1 & F2). exists e.
      rewrite code_lookup_idx in G. split; [exact G|]. split; [discriminate|]. split; [auto|lia].
  - destruct (dyn_find 0 (hi_table t) n v) as [k|] eqn:E; [|discriminate]. intros [= <- <-].
    apply dyn_find_spec in E. destruct E as (j & e & Ej & H1 & H2 & H3). rewrite N.add_0_l in Ej. subst k.
    exists e. rewrite <- code_lookup_idx, code_lookup_dyn. split; [exact H1|]. split; [auto|].
    split; [intros A; exfalso; clear -A; lia|]. intros _. split; [reflexivity|]. split; [exact H2|]. eapply nth_error_In, H1.
Qed.

(** Checkers for concrete cases. *)
Definition sendableb (f : hfield) : bool :=
  forallb (fun b => b <? 128) (fst f) && forallb (fun b => b <? 256) (snd f) &&
  (blen (fst f) <? 67108864) && (blen (snd f) <? 67108864).
Lemma sendableb_ok l : forallb sendableb l = true -> Forall sendable l.
Proof.
  intros H. apply Forall_forall. intros f Hf. rewrite forallb_forall in H. specialize (H f Hf).
  unfold sendableb in H. apply andb_true_iff in H. destruct H as [H H4]. apply andb_true_iff in H. destruct H as [H H3].
  apply andb_true_iff in H. destruct H as [H1 H2]. rewrite forallb_forall in H1, H2.
  unfold sendable. change (2 ^ 26) with 67108864. split; [|split; [|split; lia]].
  - apply Forall_forall. intros b Hb. apply N.ltb_lt, H1, Hb.
  - apply Forall_forall. intros b Hb. apply N.ltb_lt, H2, Hb.
Qed.
Definition h2_charb (b : N) : bool := (tcharb b && negb ((65 <=? b) && (b <=? 90)) && negb (b =? 94)) || (b =? 58).
Lemma h2_charb_ok l : forallb (fun f : hfield => forallb h2_charb (fst f)) l = true -> Forall (fun f => Forall h2_char (fst f)) l.
Proof.
  intros H. apply Forall_forall. intros f Hf. rewrite forallb_forall in H. specialize (H f Hf).
  apply Forall_forall. intros b Hb. rewrite forallb_forall in H. specialize (H b Hb).
  unfold h2_charb in H. apply orb_true_iff in H. destruct H as [H|H]; [left|right; lia].
  apply andb_true_iff in H. destruct H as [H H3]. apply andb_true_iff in H. destruct H as [H1 H2].
  split; [apply tcharb_ok, H1|]. unfold upper. split; lia.
Qed.
Lemma h2_pool l : Forall sendable l -> Forall (fun f => Forall h2_char (fst f)) l -> pool_ok l.
Proof.
  intros S H. split; [exact S|]. rewrite Forall_forall in H. intros f g Hf Hg. apply h2_clash_free; auto.
Qed.
Lemma h2_lower_all l : Forall (fun f => Forall h2_char (fst f)) l -> map lower_field l = l.
Proof.
  induction 1 as [|[n v] l Hf _ IH]; [reflexivity|]. cbn [map]. rewrite IH. f_equal. unfold lower_field. cbn [fst snd] in *.
  rewrite h2_lower by exact Hf. reflexivity.
Qed.
Lemma h2_lower_blocks l : Forall (fun f => Forall h2_char (fst f)) (concat l) -> map (map lower_field) l = l.
Proof.
  induction l as [|b l IH]; [reflexivity|]. cbn [concat map]. intros H. apply Forall_app in H. destruct H as [H1 H2].
  rewrite (h2_lower_all b H1), (IH H2). reflexivity.
Qed.

Lemma index_fails t i : i = 0 \/ 61 + N.of_nat (length (hi_to_vec t)) < i -> get_from_index t i = None.
Proof.
  intros H. rewrite get_from_index_app. destruct (N.eqb_spec i 0) as [|NZ]; [reflexivity|].
  destruct H as [|H]; [contradiction|]. apply nth_error_None. rewrite app_length, static_length.
  unfold hi_to_vec in H. lia.
Qed.
Lemma static_table_entry t i : 1 <= i <= 61 -> i <> 15 ->
  exists e, nth_error rfc_static (N.to_nat (i - 1)) = Some e /\ get_from_index t i = Some (rfc_entry e).
Proof.
  intros Hi N15. rewrite get_from_index_rfc by exact N15. unfold rfc_lookup.
  destruct (N.eqb_spec i 0) as [|_]; [lia|].
  assert (L : length rfc_static = 61%nat) by reflexivity.
  destruct (nth_error rfc_static (N.to_nat (i - 1))) as [e|] eqn:E.
  - exists e. split; [reflexivity|]. rewrite nth_error_app1 by (rewrite map_length; lia). rewrite nth_error_map, E. reflexivity.
  - apply nth_error_None in E. lia.
Qed.
Lemma encode_rfc m l fs : exists t, t_run m l = Ok t /\
  (Forall sendable fs ->
   (forall f, In f (hi_to_vec t) -> Forall (fun b => b < 128) (fst f)) ->
   (forall f g, In f fs -> In g (hi_to_vec t ++ fs) -> clash_free (fst g) (fst f)) ->
   (forall f, In f fs -> map lower_ascii (fst f) <> str "accept-") ->
   exists t' b, encode_headers t fs = Ok (t', b) /\
     rfc_block (hi_get_max t) (map lower_field (hi_to_vec t)) b (map lower_field fs) (map lower_field (hi_to_vec t'))).
Proof.
  destruct (t_run_spec m l) as (t & E & I & _). exists t. split; [exact E|]. intros S D C A.
  destruct (encode_rfc_block fs t I S A) as (t' & b & E2 & _ & _ & R); [|exists t', b; auto].
  intros f g Hf Hg. apply clash_ascii; [| |apply C; assumption].
  - apply in_app_or in Hg. destruct Hg as [Hg|Hg]; [apply D, Hg|]. rewrite Forall_forall in S. apply S, Hg.
  - rewrite Forall_forall in S. apply S, Hf.
Qed.
