(** Proofs for C107. *)
From Coq Require Import Ascii String NArith ZArith Lia Bool List ZifyBool ZifyNat ZifyN.
From Verif Require Import Base P_Base M_Helper M_Header M_Url M_Http1 S_Http1 S_Reason M_Ws S_Ws P_Ws M_Huffman M_Hpack S_Huffman S_Hpack S_Near M_Frame M_H2 S_Frame.
From Verif Require Import M_Std P_Std P_Helper P_Header P_Msg P_Map P_Huffman P_Hpack P_HpackTable P_HpackSync P_Frame P_Settings P_Data P_H2 S_Http1Api S_WriteAll.
Import ListNotations.
Local Open Scope N_scope.

(** ** HTTP/1 *)
Lemma request_runs q : request_written q (req_encode_header q).
Proof.
  unfold req_encode_header, method_encode, version_encode.
  destruct (q_method q) eqn:M; cbn [bind]; [apply rqw_method; exact M|..].
  all: destruct (q_version q) eqn:V; cbn [bind]; [apply rqw_version; [rewrite M; discriminate|exact V]|..].
  all: rewrite hm_encode_text, <- M, <- V; apply rqw_head; [rewrite M|rewrite V]; discriminate.
Qed.
Lemma request_one q r s : request_written q r -> request_written q s -> r = s.
Proof. intros A B. destruct A, B; congruence. Qed.
Lemma request_all q r : req_encode_header q = r <-> request_written q r.
Proof. split; [intros <-; apply request_runs|]. intros H. exact (request_one q _ _ (request_runs q) H). Qed.

Lemma phrase_iff c t : 100 <= c <= 999 -> (canonical_reason c = Some t <-> phrase c t).
Proof.
  intros R. unfold phrase. destruct (in_dec N.eq_dec c [103; 203; 425]) as [I|I].
  - destruct I as [<-|[<-|[<-|[]]]].
    + split; [discriminate|]. intros [[A _]|[A _]]; [discriminate A|]. exfalso. apply A. left. reflexivity.
    + change (canonical_reason 203) with (Some (str "Non Authoritative Information")). split.
      * intros H. left. split; [reflexivity|]. congruence.
      * intros [[_ ->]|[A _]]; [reflexivity|]. exfalso. apply A. right. left. reflexivity.
    + split; [discriminate|]. intros [[A _]|[A _]]; [discriminate A|]. exfalso. apply A. right. right. left. reflexivity.
  - rewrite (reason_registered c t R I). split; [auto|]. intros [[-> _]|[_ H]]; [exfalso; apply I; right; left; reflexivity|exact H].
Qed.
Lemma response_runs p : 100 <= p_status p <= 999 -> response_written p (resp_encode_header p).
Proof.
  intros R. unfold resp_encode_header, version_encode, status_encode.
  destruct (p_version p) eqn:V; cbn [bind]; [apply rsw_version; exact V|..].
  all: destruct (canonical_reason (p_status p)) as [s|] eqn:C; cbn [bind];
    [|apply rsw_status; [rewrite V; discriminate|intros s H; apply phrase_iff in H; [congruence|exact R]]].
  all: rewrite hm_encode_text, <- V.
  all: change (version_str (p_version p) ++ 32 :: (status_str (p_status p) ++ 32 :: s ++ crlf) ++ fields_text (p_header p))
    with (version_str (p_version p) ++ [SP] ++ (status_str (p_status p) ++ [SP] ++ s ++ CRLF) ++ fields_text (p_header p)).
  all: rewrite <- !app_assoc.
  all: apply rsw_head; [rewrite V; discriminate|apply phrase_iff; assumption].
Qed.
Lemma response_one p r s : 100 <= p_status p <= 999 -> response_written p r -> response_written p s -> r = s.
Proof.
  intros R A B. destruct A as [A|A A'|x A A'], B as [B|B B'|y B B']; try congruence.
  - exfalso. exact (A' _ B').
  - exfalso. exact (B' _ A').
  - apply phrase_iff in A'; [|exact R]. apply phrase_iff in B'; [|exact R]. rewrite A' in B'. injection B' as ->. reflexivity.
Qed.
Lemma response_all p r : 100 <= p_status p <= 999 -> (resp_encode_header p = r <-> response_written p r).
Proof. intros R. split; [intros <-; apply response_runs, R|]. intros H. exact (response_one p _ _ R (response_runs p R) H). Qed.

(** ** WebSocket *)
Lemma ws_runs d key : df_size d < 2 ^ 64 -> ws_written d key (write_to d key).
Proof.
  intros Hn. unfold write_to. rewrite df_flags_spec.
  change {| wh_flags := flagbits (df_last d) (rsv_1 d) (rsv_2 d) (rsv_3 d);
            wh_opcode := df_opcode d; wh_mask := key; wh_len := df_size d |}
    with (hdr_of (df_last d) (rsv_1 d) (rsv_2 d) (rsv_3 d) (df_opcode d) key (df_size d)).
  destruct (N.ltb_spec 15 (df_opcode d)) as [A|A].
  { unfold write_header, hdr_of. cbn [wh_opcode]. replace (15 <? df_opcode d) with true by lia. cbn [bind]. apply wsw_opcode, A. }
  destruct ((8 <=? df_opcode d) && (126 <=? df_size d)) eqn:B.
  { unfold write_header, hdr_of. cbn [wh_opcode wh_len]. replace (15 <? df_opcode d) with false by lia. rewrite B. cbn [bind]. apply wsw_control; lia. }
  rewrite write_header_spec by lia. cbn [bind].
  assert (X : df_rsv d = (rsv_1 d, rsv_2 d, rsv_3 d)) by (unfold rsv_1, rsv_2, rsv_3; destruct (df_rsv d) as [[? ?] ?]; reflexivity).
  assert (G : ws_written d key (Ok (spec_header (df_last d) (rsv_1 d) (rsv_2 d) (rsv_3 d) (df_opcode d) key (df_size d) ++ keyed key (concat (df_chunks d))))).
  { apply wsw_frame; [exact A|lia|exact X]. }
  destruct key as [[[[a b] c] e]|].
  - rewrite masker_chunks. cbn [masker_new mk_out mk_key mk_pos].
    change (mask_data_from (a, b, c, e) 0 (concat (df_chunks d))) with (mask_data (a, b, c, e) (concat (df_chunks d))).
    rewrite mask_data_spec. exact G.
  - rewrite fold_app_concat. exact G.
Qed.
Lemma ws_one d key r s : ws_written d key r -> ws_written d key s -> r = s.
Proof. intros A B. destruct A, B; try lia; try reflexivity. congruence. Qed.
Lemma ws_all d key r : df_size d < 2 ^ 64 -> (write_to d key = r <-> ws_written d key r).
Proof. intros R. split; [intros <-; apply ws_runs, R|]. intros H. exact (ws_one d key _ _ (ws_runs d key R) H). Qed.

(** ** HPACK *)
Lemma int_tail_min_spec fuel : forall v, v < 2 ^ N.of_nat fuel -> int_tail_min (int_tail fuel v) v \/ (fuel = 0)%nat.
Proof.
  induction fuel as [|f IH]; intros v H; [auto|left]. cbn [int_tail].
  destruct (N.leb_spec 128 v) as [L|L]; [|constructor; exact L].
  replace (N.of_nat (S f)) with (N.succ (N.of_nat f)) in H by lia. rewrite N.pow_succ_r' in H.
  assert (D : v / 128 < 2 ^ N.of_nat f) by (clear IH; apply N.div_lt_upper_bound; lia).
  assert (D0 : 0 < v / 128) by (clear IH; apply N.div_str_pos; lia).
  destruct (IH _ D) as [I|I].
  - replace v with (v mod 128 + 128 * (v / 128)) at 3 by (clear; lia). apply tmin_more; [|exact D0|exact I].
    apply N.mod_lt. lia.
  - subst f. change (2 ^ N.of_nat 0) with 1 in H. lia.
Qed.
Lemma encode_integer_min v p lead : 1 <= p <= 8 -> lead < 256 -> int_min p (above p lead) (encode_integer v p lead) v.
Proof.
  intros Hp Hl. unfold encode_integer. rewrite prefix_mask_eq by exact Hp.
  rewrite lead_bits by assumption. fold (above p lead).
  pose proof (pow2_range p Hp) as R.
  destruct (N.ltb_spec v (2 ^ p - 1)) as [L|L].
  - unfold above. rewrite lor_mul_pow2 by lia. constructor. exact L.
  - unfold above at 2. rewrite lor_mul_pow2 by lia. fold (above p lead).
    replace v with (2 ^ p - 1 + (v - (2 ^ p - 1))) at 3 by lia. apply imin_long.
    destruct (int_tail_min_spec (print_fuel (v - (2 ^ p - 1))) _ (print_fuel_bound _)) as [H|H]; [exact H|discriminate H].
Qed.
Lemma tail_min_one a v : int_tail_min a v -> forall b, int_tail_min b v -> a = b.
Proof.
  induction 1 as [x L|x l w L W H IH]; intros b B; inversion B as [y M E1|y l' w' M W' H' E1 E2]; subst.
  - reflexivity.
  - exfalso. lia.
  - exfalso. lia.
  - assert (w' = w) by lia. subst w'. assert (y = x) by lia. subst y. f_equal. apply IH, H'.
Qed.
Lemma int_min_one p fl a b v : int_min p fl a v -> int_min p fl b v -> a = b.
Proof.
  intros A B. destruct A as [v L|l w H]; inversion B as [u M E1 E2|l' w' H' E1 E2]; subst.
  - reflexivity.
  - exfalso. lia.
  - exfalso. lia.
  - assert (w' = w) by lia. subst w'. f_equal. exact (tail_min_one _ _ H _ H').
Qed.
Lemma encode_string_written s : bytes_ok s -> exists b, encode_string s = Ok b /\ str_written s b.
Proof.
  intros H. destruct (huff_encode_coded s H) as (c & E & B & C). unfold encode_string. rewrite E. cbn [bind].
  eexists. split; [reflexivity|]. apply strw; [exact B|exact C|].
  change 128 with (above 7 128) at 1. apply encode_integer_min; lia.
Qed.
Lemma str_written_one s a b : str_written s a -> str_written s b -> a = b.
Proof.
  intros A B. destruct A as [h c K C I]. destruct B as [h' c' K' C' I'].
  assert (c' = c) by (apply (huff_coded_unique c' c s); assumption). subst c'. f_equal. exact (int_min_one _ _ _ _ _ I I').
Qed.

(** The static table. *)
Lemma static_keys n e : bytes_ok n -> In e STATIC_TABLE -> static_match (fst e) n = beq (fst e) (lower_name n).
Proof.
  intros Hn He. pose proof static_lower as S. pose proof static_ascii as A. rewrite Forall_forall in S, A.
  apply eq_true_iff_eq. rewrite beq_eq. split; [apply static_match_lower, He|]. intros H. unfold static_match. apply andb_true_iff. split.
  - apply beq_eq. change (map lower_ascii (fst e) = map lower_ascii n). rewrite (S e He). exact H.
  - apply fold_name_eq; [|exact Hn|].
    + specialize (A e He). eapply Forall_impl; [|exact A]. intros x Hx. unfold byte_ok. cbv beta in Hx. lia.
    + change (map lower_ascii (fst e) = map lower_ascii n). rewrite (S e He). exact H.
Qed.
Lemma static_distinct : NoDup code_static.
Proof.
  assert (D : (fix f (l : list hfield) : bool := match l with [] => true | x :: l' => negb (existsb (fun y => beq (fst x) (fst y) && beq (snd x) (snd y)) l') && f l' end) code_static = true) by (vm_compute; reflexivity).
  revert D. generalize code_static as l. induction l as [|x l IH]; intros D; constructor.
  - intros K. apply andb_true_iff in D as [D _]. apply negb_true_iff in D.
    assert (E : existsb (fun y : hfield => beq (fst x) (fst y) && beq (snd x) (snd y)) l = true).
    { apply existsb_exists. exists x. split; [exact K|]. apply andb_true_iff. split; apply beq_eq; reflexivity. }
    exact (eq_true_false_abs _ E D).
  - apply IH. apply andb_true_iff in D as [_ D]. exact D.
Qed.
Lemma static_at_one i j n v : static_at i n v -> static_at j n v -> i = j.
Proof.
  intros [A1 A2] [B1 B2]. pose proof static_distinct as N. rewrite NoDup_nth_error in N.
  assert (L : (N.to_nat (i - 1) < length code_static)%nat) by (apply nth_error_Some; congruence).
  specialize (N _ (N.to_nat (j - 1)) L). rewrite A2, B2 in N. specialize (N eq_refl). lia.
Qed.
Lemma static_at_small i n v : static_at i n v -> 1 <= i <= 61.
Proof.
  intros [A B]. assert (L : (N.to_nat (i - 1) < length code_static)%nat) by (apply nth_error_Some; congruence).
  change (length code_static) with 61%nat in L. lia.
Qed.
Lemma static_pos_at n v : bytes_ok n ->
  match static_pos n v with
  | Some i => static_at i (lower_name n) v
  | None => forall i, ~ static_at i (lower_name n) v
  end.
Proof.
  intros Hn. unfold static_pos. destruct (static_pos_from 1 STATIC_TABLE n v) as [k|] eqn:E.
  - apply static_pos_spec in E. destruct E as (j & e & -> & H1 & H2 & H3). split; [lia|].
    rewrite code_static_table. replace (N.to_nat (1 + N.of_nat j - 1)) with j by lia. etransitivity; [exact H1|].
    rewrite (static_keys n e Hn (nth_error_In _ _ H1)) in H2. apply beq_eq in H2. subst v. rewrite <- H2. destruct e; reflexivity.
  - intros i [A B]. rewrite code_static_table in B. pose proof (nth_error_In _ _ B) as I.
    pose proof (static_pos_none _ _ _ _ E _ I) as F. rewrite (static_keys n _ Hn I) in F. cbn [fst snd] in F.
    assert (X : beq (lower_name n) (lower_name n) = true) by (apply beq_eq; reflexivity).
    assert (Y : beq v v = true) by (apply beq_eq; reflexivity). rewrite X, Y in F. discriminate F.
Qed.
Lemma static_named_at n : bytes_ok n -> (static_named n = true <-> exists i v, static_at i (lower_name n) v).
Proof.
  intros Hn. unfold static_named. rewrite existsb_exists. split.
  - intros (e & He & H). destruct (In_nth_error _ _ He) as (j & J). exists (1 + N.of_nat j), (snd e). split; [lia|].
    rewrite code_static_table. replace (N.to_nat (1 + N.of_nat j - 1)) with j by lia. etransitivity; [exact J|].
    rewrite (static_keys n e Hn He) in H. apply beq_eq in H. rewrite <- H. destruct e; reflexivity.
  - intros (i & v & A & B). rewrite code_static_table in B. pose proof (nth_error_In _ _ B) as I. eexists. split; [exact I|].
    rewrite (static_keys n _ Hn I). apply beq_eq. reflexivity.
Qed.

(** The dynamic table. *)
Lemma alike_iff a b : bytes_ok a -> bytes_ok b -> (name_eq a b = true <-> alike a b).
Proof. exact (name_eq_iff a b). Qed.
Lemma held_iff e n v : field_octets e -> bytes_ok n -> (name_eq (fst e) n && beq (snd e) v = true <-> held (n, v) e).
Proof. intros [E1 E2] Hn. unfold held. cbn [fst snd]. rewrite andb_true_iff, (alike_iff _ _ E1 Hn), beq_eq. reflexivity. Qed.
Lemma dyn_find_held d n v : Forall field_octets d -> bytes_ok n -> forall i,
  match dyn_find i d n v with
  | None => forall e, In e d -> ~ held (n, v) e
  | Some k => exists j e, k = i + N.of_nat j /\ nth_error d j = Some e /\ held (n, v) e /\ forall e', In e' (firstn j d) -> ~ held (n, v) e'
  end.
Proof.
  intros D Hn. induction D as [|x d Hx D IH]; intros i; cbn [dyn_find]; [intros e []|].
  pose proof (held_iff x n v Hx Hn) as H. destruct (name_eq (fst x) n && beq (snd x) v).
  - exists 0%nat, x. split; [lia|]. split; [reflexivity|]. split; [apply H; reflexivity|intros e' []].
  - specialize (IH (i + 1)). destruct (dyn_find (i + 1) d n v) as [k|].
    + destruct IH as (j & e & -> & H1 & H2 & H3). exists (S j), e. split; [lia|]. split; [exact H1|]. split; [exact H2|].
      cbn [firstn]. intros e' [<-|K]; [intros G; apply H in G; discriminate G|exact (H3 e' K)].
    + intros e [<-|K]; [intros G; apply H in G; discriminate G|exact (IH e K)].
Qed.

Lemma encode_literal_written n v : bytes_ok n -> bytes_ok v ->
  exists ln lv, encode_literal (n, v) true = Ok (64 :: ln ++ lv) /\ str_written (lower_name n) ln /\ str_written v lv.
Proof.
  intros Hn Hv. destruct (encode_string_written (lower_name n) (lower_ok n Hn)) as (ln & E1 & W1).
  destruct (encode_string_written v Hv) as (lv & E2 & W2). exists ln, lv. split; [|split; assumption].
  unfold encode_literal. cbn [fst snd]. change (encode_string_lower n) with (encode_string (lower_name n)). rewrite E1. cbn [bind]. rewrite E2. reflexivity.
Qed.
Lemma field_runs max dyn f : table_typed max dyn -> field_octets f ->
  exists b dyn', encode_header (table_of max dyn) f = Ok (table_of max dyn', b) /\ field_written max dyn f b dyn'.
Proof.
  intros [T D] [Fn Fv]. destruct f as [n v]. cbn [fst snd] in *. unfold encode_header, find_header.
  assert (I : idx_inv (table_of max dyn)) by (split; [reflexivity|exact T]).
  assert (AD : add_header (table_of max dyn) (n, v) = Ok (table_of max (rfc_add max dyn (n, v)))) by exact (add_header_spec _ (n, v) I).
  pose proof (static_named_at n Fn) as SN. pose proof (static_pos_at n v Fn) as P1. pose proof (static_pos_at n [] Fn) as P2.
  destruct (static_named n).
  - destruct (static_pos n v) as [i|].
    + exists [128 + i], dyn. split; [|apply fw_entry; exact P1]. pose proof (static_at_small _ _ _ P1). unfold encode_indexed.
      pose proof (encode_integer_min i 7 128 ltac:(lia) ltac:(lia)) as M. change (above 7 128) with 128 in M.
      rewrite (int_min_one _ _ _ [128 + i] i M); [reflexivity|]. apply imin_short. change (2 ^ 7 - 1) with 127. lia.
    + destruct (static_pos n []) as [i|].
      * destruct (encode_string_written v Fv) as (lv & E2 & W2). exists (64 + i :: lv), (rfc_add max dyn (n, v)).
        split; [|apply fw_name; assumption]. unfold encode_indexed_name. cbn [snd]. rewrite E2. cbn [bind].
        rewrite AD. cbn [bind]. pose proof (static_at_small _ _ _ P2).
        pose proof (encode_integer_min i 6 64 ltac:(lia) ltac:(lia)) as M. change (above 6 64) with 64 in M.
        rewrite (int_min_one _ _ _ [64 + i] i M); [reflexivity|]. apply imin_short. change (2 ^ 6 - 1) with 63. lia.
      * destruct (encode_literal_written n v Fn Fv) as (ln & lv & E & W1 & W2). rewrite E. cbn [bind]. rewrite AD. cbn [bind].
        exists (64 :: ln ++ lv), (rfc_add max dyn (n, v)). split; [reflexivity|]. destruct SN as [SN _]. destruct (SN eq_refl) as (i & w & S).
        apply (fw_valued max dyn (n, v) i w); assumption.
  - assert (NS : forall i w, ~ static_at i (lower_name n) w) by (intros i w S; destruct SN as [_ SN]; discriminate SN; eauto).
    pose proof (dyn_find_held dyn n v D Fn 0) as DF. cbn [table_of hi_table]. destruct (dyn_find 0 dyn n v) as [k|].
    + destruct DF as (j & e & -> & H1 & H2 & H3). unfold encode_indexed. rewrite static_length.
      exists (encode_integer (62 + N.of_nat j) 7 128), dyn. split.
      * replace (0 + N.of_nat j + 1 + N.of_nat 61) with (62 + N.of_nat j) by lia. reflexivity.
      * apply (fw_known max dyn (n, v) j e); try assumption. change 128 with (above 7 128) at 1. apply encode_integer_min; lia.
    + destruct (encode_literal_written n v Fn Fv) as (ln & lv & E & W1 & W2). rewrite E. cbn [bind].
      change {| hi_table := dyn; hi_size := total_size dyn; hi_max := max |} with (table_of max dyn). rewrite AD. cbn [bind].
      exists (64 :: ln ++ lv), (rfc_add max dyn (n, v)). split; [reflexivity|]. apply fw_new; assumption.
Qed.

Lemma table_typed_add max dyn f : table_typed max dyn -> field_octets f -> table_typed max (rfc_add max dyn f).
Proof.
  intros [T D] F. split; [apply newest_size|]. unfold rfc_add. destruct (newest_longest max (f :: dyn)) as (r & E & _).
  assert (A : Forall field_octets (f :: dyn)) by (constructor; assumption). rewrite E in A. apply Forall_app in A. exact (proj1 A).
Qed.
Lemma field_typed max dyn f b dyn' : table_typed max dyn -> field_octets f -> field_written max dyn f b dyn' -> table_typed max dyn'.
Proof. intros T F W. destruct W; try exact T; apply table_typed_add; assumption. Qed.

Lemma firstn_in {A} (l : list A) x : forall i j, (i < j)%nat -> nth_error l i = Some x -> In x (firstn j l).
Proof.
  induction l as [|y l IH]; intros i j L H; [destruct i; discriminate H|]. destruct j as [|j]; [lia|]. cbn [firstn].
  destruct i as [|i]; [injection H as ->; left; reflexivity|]. right. apply (IH i j); [lia|exact H].
Qed.
Lemma first_one {A} (P : A -> Prop) l i j x y : nth_error l i = Some x -> P x -> (forall e, In e (firstn i l) -> ~ P e) ->
  nth_error l j = Some y -> P y -> (forall e, In e (firstn j l) -> ~ P e) -> i = j.
Proof.
  intros A1 A2 A3 B1 B2 B3. destruct (PeanoNat.Nat.lt_trichotomy i j) as [L|[L|L]]; [|exact L|]; exfalso.
  - exact (B3 x (firstn_in l x i j L A1) A2).
  - exact (A3 y (firstn_in l y j i L B1) B2).
Qed.
Lemma field_one max dyn f a d b e : field_written max dyn f a d -> field_written max dyn f b e -> a = b /\ d = e.
Proof.
  intros A B. destruct A as [i S|i lv S1 S2 L|i v ln lv S1 S2 S3 L1 L2|j x l S N H F I|ln lv S N L1 L2];
    destruct B as [i' S'|i' lv' S1' S2' L'|i' v' ln' lv' S1' S2' S3' L1' L2'|j' x' l' S' N' H' F' I'|ln' lv' S' N' L1' L2'];
    try (exfalso; unfold not in *; eauto; fail).
  - rewrite (static_at_one _ _ _ _ S S'). auto.
  - rewrite (static_at_one _ _ _ _ S2 S2'), (str_written_one _ _ _ L L'). auto.
  - rewrite (str_written_one _ _ _ L1 L1'), (str_written_one _ _ _ L2 L2'). auto.
  - assert (j' = j) by exact (first_one (held f) dyn j' j x' x N' H' F' N H F). subst j'. rewrite (int_min_one _ _ _ _ _ I I'). auto.
  - exfalso. apply nth_error_In in N. exact (N' x N H).
  - exfalso. apply nth_error_In in N'. exact (N x' N' H').
  - rewrite (str_written_one _ _ _ L1 L1'), (str_written_one _ _ _ L2 L2'). auto.
Qed.
Lemma field_all max dyn f t b : table_typed max dyn -> field_octets f ->
  (encode_header (table_of max dyn) f = Ok (t, b) <-> exists dyn', t = table_of max dyn' /\ field_written max dyn f b dyn').
Proof.
  intros T F. destruct (field_runs max dyn f T F) as (b' & d' & E & W). rewrite E. split.
  - intros H. injection H as <- <-. eauto.
  - intros (d & -> & H). destruct (field_one _ _ _ _ _ _ _ H W) as [-> ->]. reflexivity.
Qed.

Lemma fields_run max fs : Forall field_octets fs -> forall dyn, table_typed max dyn ->
  exists b dyn', encode_headers (table_of max dyn) fs = Ok (table_of max dyn', b) /\ fields_written max dyn fs b dyn' /\ table_typed max dyn'.
Proof.
  induction 1 as [|f fs F _ IH]; intros dyn T; [exists [], dyn; split; [reflexivity|split; [constructor|exact T]]|].
  destruct (field_runs max dyn f T F) as (b & d1 & E & W). pose proof (field_typed _ _ _ _ _ T F W) as T1.
  destruct (IH d1 T1) as (bs & d2 & E2 & W2 & T2). exists (b ++ bs), d2. cbn [encode_headers]. rewrite E. cbn [bind]. rewrite E2. cbn [bind].
  split; [reflexivity|]. split; [|exact T2]. econstructor; eassumption.
Qed.
Lemma fields_one max dyn fs a d : fields_written max dyn fs a d -> forall b e, fields_written max dyn fs b e -> a = b /\ d = e.
Proof.
  induction 1 as [dyn|dyn f fs l d1 ls d2 W H IH]; intros b e B; inversion B as [|? ? ? l' d1' ls' d2' W' H']; subst; [auto|].
  destruct (field_one _ _ _ _ _ _ _ W W') as [-> ->]. destruct (IH _ _ H') as [-> ->]. auto.
Qed.
Lemma fields_all max dyn fs t b : table_typed max dyn -> Forall field_octets fs ->
  (encode_headers (table_of max dyn) fs = Ok (t, b) <-> exists dyn', t = table_of max dyn' /\ fields_written max dyn fs b dyn').
Proof.
  intros T F. destruct (fields_run max fs F dyn T) as (b' & d' & E & W & _). rewrite E. split.
  - intros H. injection H as <- <-. eauto.
  - intros (d & -> & H). destruct (fields_one _ _ _ _ _ H _ _ W) as [-> ->]. reflexivity.
Qed.

Lemma pieces_run room max fs : Forall field_octets fs -> forall dyn cur, table_typed max dyn ->
  exists cs dyn', block_chunks room (table_of max dyn) fs cur = Ok (table_of max dyn', cs) /\ pieces room max dyn fs cur cs dyn' /\ table_typed max dyn'.
Proof.
  induction 1 as [|f fs F _ IH]; intros dyn cur T; [exists [cur], dyn; split; [reflexivity|split; [constructor|exact T]]|].
  destruct (field_runs max dyn f T F) as (b & d1 & E & W). pose proof (field_typed _ _ _ _ _ T F W) as T1.
  cbn [block_chunks]. cbv zeta. rewrite E. cbn [bind]. destruct (N.ltb_spec room (blen (fst f) + blen (snd f) + blen cur)) as [L|L].
  - destruct (IH d1 b T1) as (cs & d2 & E2 & W2 & T2). cbn [app]. rewrite E2. cbn [bind]. exists (cur :: cs), d2. split; [reflexivity|].
    split; [|exact T2]. eapply pc_next; eassumption.
  - destruct (IH d1 (cur ++ b) T1) as (cs & d2 & E2 & W2 & T2). rewrite E2. cbn [bind]. exists cs, d2. split; [reflexivity|].
    split; [|exact T2]. eapply pc_stay; eassumption.
Qed.
Lemma pieces_one room max dyn fs cur cs d : pieces room max dyn fs cur cs d -> forall cs' d', pieces room max dyn fs cur cs' d' -> cs = cs' /\ d = d'.
Proof.
  induction 1 as [dyn cur|dyn f fs cur l d1 cs d2 L W H IH|dyn f fs cur l d1 cs d2 L W H IH]; intros cs' d' B;
    inversion B as [|? ? ? ? l' d1' ? d2' L' W' H'|? ? ? ? l' d1' cs2 d2' L' W' H']; subst; try (exfalso; lia); [auto|..].
  - destruct (field_one _ _ _ _ _ _ _ W W') as [-> ->]. exact (IH _ _ H').
  - destruct (field_one _ _ _ _ _ _ _ W W') as [-> ->]. destruct (IH _ _ H') as [-> ->]. auto.
Qed.

(** ** Frames *)
Lemma encode_u24_mod v : encode_u24 v = octets3 (v mod 16777216).
Proof.
  rewrite <- encode_u24_octets by (apply N.mod_lt; lia). unfold encode_u24. rewrite !N.shiftr_div_pow2.
  change (2 ^ 16) with 65536. change (2 ^ 8) with 256. change (2 ^ 0) with 1. rewrite !N.div_1_r.
  assert (A : v / 65536 mod 256 = v mod 16777216 / 65536 mod 256) by lia.
  assert (B : v / 256 mod 256 = v mod 16777216 / 256 mod 256) by lia.
  assert (C : v mod 256 = v mod 16777216 mod 256) by lia. rewrite A, B, C. reflexivity.
Qed.
Lemma fh_framed k f id p : u32 id -> fh_encode (mkFH (blen p) k f id) ++ p = framed (kind_encode k) f id p.
Proof.
  intros I. unfold framed, header_octets, fh_encode, stream_encode. cbn [fh_length fh_kind fh_flag fh_id].
  rewrite encode_u24_mod, be_enc_4 by exact I. rewrite <- !app_assoc. reflexivity.
Qed.
Lemma set_end f : set_end_headers f = end_headers f.
Proof. unfold set_end_headers, flag_set, end_headers, END_HEADERS. rewrite N.setbit_spec'. reflexivity. Qed.
Lemma unset_end f : unset_end_stream f = no_end_stream f.
Proof. unfold unset_end_stream, flag_set, no_end_stream, END_STREAM. rewrite N.clearbit_spec'. reflexivity. Qed.
Lemma tails_frames fl id cs : u32 id -> cont_frames fl id cs = tails_framed (end_headers fl) id cs.
Proof.
  intros I. induction cs as [|c cs IH]; [reflexivity|]. cbn [cont_frames tails_framed]. destruct cs as [|c' cs].
  - rewrite set_end. exact (fh_framed KContinuation _ _ _ I).
  - rewrite IH. rewrite app_assoc. f_equal. exact (fh_framed KContinuation _ _ _ I).
Qed.
Lemma block_frames_framed fl id cs : u32 id -> block_frames fl id cs = block_framed (end_headers fl) id cs.
Proof.
  intros I. unfold block_frames, block_framed. destruct cs as [|c [|c' cs]]; [reflexivity|..].
  - rewrite set_end. exact (fh_framed KHeaders _ _ _ I).
  - rewrite (tails_frames fl id (c' :: cs) I), app_assoc. f_equal. exact (fh_framed KHeaders _ _ _ I).
Qed.
Lemma block_run room max dyn fl id fs : u32 id -> table_typed max dyn -> Forall field_octets fs ->
  exists cs dyn', block_encode room (table_of max dyn) fl id fs = Ok (table_of max dyn', block_framed (end_headers fl) id cs) /\
    pieces room max dyn fs [] cs dyn' /\ table_typed max dyn'.
Proof.
  intros I T F. destruct (pieces_run room max fs F dyn [] T) as (cs & d' & E & W & T'). exists cs, d'. split; [|split; assumption].
  unfold block_encode. rewrite E. cbn [bind]. rewrite block_frames_framed by exact I. reflexivity.
Qed.

(** DATA *)
Definition data_pieces (room : N) (l : bytes) (cs : list bytes) (c : bytes) : Prop :=
  l = concat cs ++ c /\ (0 < room \/ cs = []) /\ Forall (fun x => blen x = room) cs /\ blen c <= room /\ (l <> [] -> c <> []).
Lemma data_loop_run room id f : u32 id -> forall fuel l, (length l < fuel)%nat -> 0 < room \/ l = [] ->
  exists cs c, data_loop fuel room id f l = Ok (concat (map (framed 0 (no_end_stream f) id) cs) ++ framed 0 f id c) /\ data_pieces room l cs c.
Proof.
  intros I. induction fuel as [|fuel IH]; intros l L M; [lia|]. cbn [data_loop].
  destruct (N.ltb_spec (N.min (blen l) room) (blen l)) as [A|A].
  - assert (E : N.min (blen l) room = room) by lia. rewrite E in *. assert (M0 : 0 < room) by (destruct M as [M|M]; [exact M|subst l; change (blen []) with 0 in A; lia]).
    assert (F : blen (firstn (N.to_nat room) l) = room) by (unfold blen in *; rewrite firstn_length; lia).
    destruct (IH (skipn (N.to_nat room) l)) as (cs & la & H & C & C0 & Fa & La & Ne); [rewrite skipn_length; unfold blen in A; lia|left; exact M0|].
    rewrite H. cbn [bind]. exists (firstn (N.to_nat room) l :: cs), la. split.
    + cbn [map concat]. rewrite <- (fh_framed KData (no_end_stream f) id (firstn _ l) I), F, unset_end, <- !app_assoc. reflexivity.
    + split; [|split; [|split; [|split]]].
      * cbn [concat]. rewrite <- app_assoc, <- C. symmetry. apply firstn_skipn.
      * left. exact M0.
      * constructor; assumption.
      * exact La.
      * intros _. apply Ne. intros Z. apply (f_equal (@length _)) in Z. rewrite skipn_length in Z. cbn [length] in Z. unfold blen in A. lia.
  - assert (E : N.min (blen l) room = blen l) by lia. rewrite E. exists [], l. cbn [map concat app].
    split; [rewrite (fh_framed KData f id l I); reflexivity|]. split; [reflexivity|]. split; [right; reflexivity|]. split; [constructor|]. split; [lia|auto].
Qed.
Lemma data_pieces_one room cs : forall l c cs' c', data_pieces room l cs c -> data_pieces room l cs' c' -> cs = cs' /\ c = c'.
Proof.
  induction cs as [|x cs IH]; intros l c cs' c' (A & A0 & A1 & A2 & A3) (B & B0 & B1 & B2 & B3).
  - destruct cs' as [|y cs']; [cbn [concat app] in A, B; split; congruence|exfalso].
    cbn [concat app] in A, B. destruct B0 as [B0|B0]; [|discriminate B0]. inversion B1; subst. rewrite <- app_assoc in A2, A3. rewrite !blen_app in A2.
    assert (c' <> []) as N.
    { apply B3. intros Z. apply (f_equal blen) in Z. rewrite <- app_assoc, !blen_app in Z. change (blen []) with 0 in Z. lia. }
    apply N. destruct c'; [reflexivity|]. rewrite blen_cons in A2. lia.
  - inversion A1 as [|? ? X1 X2]; subst x0 l0. destruct A0 as [A0|A0]; [|discriminate A0]. destruct cs' as [|y cs'].
    + exfalso. cbn [concat app] in A, B. rewrite <- app_assoc in A. subst l. rewrite B in *. 
      apply (f_equal blen) in B. rewrite !blen_app in B.
      assert (c <> []) as N.
      { apply A3. intros Z. subst c'. rewrite blen_nil in B. lia. }
      apply N. destruct c; [reflexivity|]. rewrite blen_cons in B. lia.
    + inversion B1 as [|? ? Y1 Y2]; subst x0 l0. cbn [concat app] in A, B. rewrite <- app_assoc in A, B. rewrite A in B.
      assert (XY : x = y /\ concat cs ++ c = concat cs' ++ c').
      { split.
        - apply (f_equal (firstn (length x))) in B. rewrite firstn_app, PeanoNat.Nat.sub_diag in B. cbn [firstn] in B.
          rewrite firstn_all, app_nil_r in B. assert (LE : length x = length y) by (unfold blen in X1, Y1; lia).
          rewrite LE, firstn_app, PeanoNat.Nat.sub_diag in B. cbn [firstn] in B. rewrite firstn_all, app_nil_r in B. exact B.
        - apply (f_equal (skipn (length x))) in B. rewrite skipn_app, PeanoNat.Nat.sub_diag in B. cbn [skipn] in B.
          rewrite skipn_all in B. assert (LE : length x = length y) by (unfold blen in X1, Y1; lia).
          rewrite LE, skipn_app, PeanoNat.Nat.sub_diag in B. cbn [skipn] in B. rewrite skipn_all in B. exact B. }
      destruct XY as [<- XY].
      assert (NE : l <> []). { intros Z. rewrite Z in A. apply (f_equal blen) in A. rewrite blen_app, blen_nil in A. lia. }
      destruct (IH (concat cs ++ c) c cs' c') as [-> ->]; [| |auto].
      * split; [reflexivity|]. split; [left; exact A0|]. split; [exact X2|]. split; [exact A2|]. intros _. exact (A3 NE).
      * split; [exact XY|]. split; [left; exact A0|]. split; [exact Y2|]. split; [exact B2|]. intros _. exact (B3 NE).
Qed.

(** PUSH_PROMISE *)
Lemma insert_octets h n v : Forall field_octets h -> bytes_ok n -> bytes_ok v -> Forall field_octets (hm_insert h n v).
Proof.
  intros H Hn Hv. induction H as [|[a b] h [A B] H IH]; cbn [hm_insert]; [constructor; [split; assumption|constructor]|].
  destruct (name_eq a n); constructor; try assumption; split; assumption.
Qed.
Lemma opt_insert_octets h n o : Forall field_octets h -> forallb (fun b => b <? 256) (str n) = true -> (forall v, o = Some v -> bytes_ok v) -> Forall field_octets (opt_insert h n o).
Proof. intros H Hn Hv. destruct o as [v|]; [|exact H]. apply insert_octets; [exact H|apply bytes_okb_ok, Hn|apply Hv; reflexivity]. Qed.
Lemma parts_insert_octets p h : parts_octets p -> Forall field_octets h -> Forall field_octets (parts_encode_header p h).
Proof.
  intros (A & B & C & D & E) H. unfold parts_encode_header. cbv zeta.
  repeat (apply opt_insert_octets; [|reflexivity|]); [exact H|..].
  - intros v V. destruct (pt_method p) as [m|]; [|discriminate V]. injection V as <-. apply A; reflexivity.
  - exact C.
  - intros v V. destruct (pt_scheme p) as [m|]; [|discriminate V]. injection V as <-. apply B; reflexivity.
  - exact D.
  - intros v V. destruct (pt_status p) as [m|]; [|discriminate V]. injection V as <-. specialize (E m eq_refl). rewrite status_str_three by exact E.
    unfold three_digits. repeat constructor; unfold byte_ok; lia.
Qed.
Lemma remove_taken n h : Forall field_octets h -> bytes_ok n -> taken n h (snd (hm_remove h n)) (fst (hm_remove h n)) /\
  Forall field_octets (fst (hm_remove h n)) /\ (forall v, snd (hm_remove h n) = Some v -> bytes_ok v).
Proof.
  intros H Hn. induction H as [|[a b] h [A B] H IH]; cbn [hm_remove].
  { split; [apply tk_none; intros e []|]. split; [constructor|discriminate]. }
  cbn [fst snd] in A, B. pose proof (alike_iff a n A Hn) as AL. destruct (name_eq a n).
  - cbn [fst snd]. split; [|split; [exact H|intros v V; injection V as <-; exact B]].
    apply (tk_some n [] (a, b) h); [intros e' []|]. apply AL. reflexivity.
  - destruct (hm_remove h n) as [r o]. cbn [fst snd] in *. destruct IH as (T & F & V).
    assert (NA : ~ alike a n) by (intros K; apply AL in K; discriminate K).
    split; [|split; [constructor; [split; assumption|exact F]|exact V]].
    destruct T as [h T|h1 e h2 T1 T2].
    + apply tk_none. intros e [<-|K]; [exact NA|exact (T e K)].
    + apply (tk_some n ((a, b) :: h1) e h2); [|exact T2]. intros e' [<-|K]; [exact NA|exact (T1 e' K)].
Qed.
Lemma taken_one n h o h' : taken n h o h' -> forall o' h'', taken n h o' h'' -> o = o' /\ h' = h''.
Proof.
  intros T. destruct T as [h T|h1 e h2 T1 T2]; intros o' h'' B.
  - destruct B as [h B|g1 x g2 B1 B2]; [auto|]. exfalso. apply (T x); [apply in_elt|exact B2].
  - remember (h1 ++ e :: h2) as z eqn:Ez. destruct B as [z B|g1 x g2 B1 B2].
    + exfalso. subst z. apply (B e); [apply in_elt|exact T2].
    + assert (X : length g1 = length h1).
      { apply (first_one (fun f : hfield => alike (fst f) n) (g1 ++ x :: g2) (length g1) (length h1) x e).
        - rewrite nth_error_app2 by lia. rewrite PeanoNat.Nat.sub_diag. reflexivity.
        - exact B2.
        - intros f K. rewrite firstn_app, PeanoNat.Nat.sub_diag, firstn_all in K. cbn [firstn] in K. rewrite app_nil_r in K. exact (B1 f K).
        - rewrite Ez, nth_error_app2 by lia. rewrite PeanoNat.Nat.sub_diag. reflexivity.
        - exact T2.
        - intros f K. rewrite Ez, firstn_app, PeanoNat.Nat.sub_diag, firstn_all in K. cbn [firstn] in K. rewrite app_nil_r in K. exact (T1 f K). }
      assert (Y : g1 = h1 /\ x :: g2 = e :: h2).
      { split.
        - apply (f_equal (firstn (length g1))) in Ez. rewrite X in Ez at 2. rewrite !firstn_app, !PeanoNat.Nat.sub_diag, !firstn_all in Ez. cbn [firstn] in Ez.
          rewrite !app_nil_r in Ez. exact Ez.
        - apply (f_equal (skipn (length g1))) in Ez. rewrite X in Ez at 2. rewrite !skipn_app, !PeanoNat.Nat.sub_diag, !skipn_all in Ez. exact Ez. }
      destruct Y as [-> Y]. injection Y as -> ->. auto.
Qed.
Lemma pseudo_one ns h fs r : pseudo_taken ns h fs r -> forall fs' r', pseudo_taken ns h fs' r' -> fs = fs' /\ r = r'.
Proof.
  induction 1 as [h|n ns h h1 fs h2 T H IH|n ns h v h1 fs h2 T H IH]; intros fs' r' B;
    inversion B as [|? ? ? g1 ? ? T' H'|? ? ? v' g1 ? ? T' H']; subst; [auto|..].
  all: destruct (taken_one _ _ _ _ T _ _ T') as [X Y]; try discriminate X; subst.
  - exact (IH _ _ H').
  - injection X as <-. destruct (IH _ _ H') as [-> ->]. auto.
Qed.
Lemma fields_snoc max dyn fs b d f c d' : fields_written max dyn fs b d -> field_written max d f c d' -> fields_written max dyn (fs ++ [f]) (b ++ c) d'.
Proof.
  intros H W. induction H as [dyn|dyn g gs l d1 ls d2 G H IH]; cbn [app].
  - rewrite <- (app_nil_r c). econstructor; [exact W|constructor].
  - rewrite <- app_assoc. econstructor; [exact G|]. apply IH, W.
Qed.
Definition push_state (max : N) (dyn : list hfield) (h0 : list hfield) (ns : list string) (fs : list hfield) (s : hindex * headers * bytes) : Prop :=
  exists dyn' h b, s = (table_of max dyn', h, b) /\ table_typed max dyn' /\ Forall field_octets h /\ fields_written max dyn fs b dyn' /\
    forall ns' fs' r, pseudo_taken ns' h fs' r -> pseudo_taken (ns ++ ns') h0 (fs ++ fs') r.
Lemma push_step max dyn h0 ns fs s n : push_state max dyn h0 ns fs s -> forallb (fun b => b <? 256) (str n) = true ->
  exists fs' s', push_spec s n = Ok s' /\ push_state max dyn h0 (ns ++ [n]) fs' s'.
Proof.
  intros (d & h & b & -> & T & F & W & P) Hn. apply bytes_okb_ok in Hn. unfold push_spec.
  destruct (remove_taken (str n) h F Hn) as (R1 & R2 & R3). destruct (hm_remove h (str n)) as [h' o]. cbn [fst snd] in *. destruct o as [v|].
  - assert (FO : field_octets (str n, v)) by (split; [exact Hn|apply R3; reflexivity]).
    destruct (field_runs max d (str n, v) T FO) as (e & d' & E & WF). rewrite E. cbn [bind]. exists (fs ++ [(str n, v)]). eexists. split; [reflexivity|].
    exists d', h', (b ++ e). split; [reflexivity|]. split; [exact (field_typed _ _ _ _ _ T FO WF)|]. split; [exact R2|]. split; [exact (fields_snoc _ _ _ _ _ _ _ _ W WF)|].
    intros ns' fs' r Q. rewrite <- !app_assoc. cbn [app]. apply P. eapply pt_some; eassumption.
  - exists fs. eexists. split; [reflexivity|]. exists d, h', b. split; [reflexivity|]. split; [exact T|]. split; [exact R2|]. split; [exact W|].
    intros ns' fs' r Q. rewrite <- !app_assoc. cbn [app]. apply P. eapply pt_none; eassumption.
Qed.
Lemma push_run room max dyn p : table_typed max dyn -> frame_typed (FPushPromise p) ->
  exists b dyn', push_encode room (table_of max dyn) p = Ok (table_of max dyn', b) /\ frame_written room max dyn (FPushPromise p) b dyn'.
Proof.
  intros T (I & J & F & PO). unfold push_encode. cbv zeta. pose proof (parts_insert_octets _ _ PO F) as H0.
  remember (parts_encode_header (pp_parts p) (pp_fields p)) as h0 eqn:Eh0.
  assert (S0 : push_state max dyn h0 [] [] (table_of max dyn, h0, [])).
  { exists dyn, h0, []. split; [reflexivity|]. split; [exact T|]. split; [exact H0|]. split; [constructor|]. intros ns' fs' r Q. exact Q. }
  destruct (push_step _ _ _ _ _ _ ":method" S0 eq_refl) as (f1 & s1 & E1 & S1). rewrite E1. cbn [bind].
  destruct (push_step _ _ _ _ _ _ ":authority" S1 eq_refl) as (f2 & s2 & E2 & S2). rewrite E2. cbn [bind].
  destruct (push_step _ _ _ _ _ _ ":scheme" S2 eq_refl) as (f3 & s3 & E3 & S3). rewrite E3. cbn [bind].
  destruct (push_step _ _ _ _ _ _ ":path" S3 eq_refl) as (f4 & s4 & E4 & S4). rewrite E4. cbn [bind].
  destruct S4 as (d & h & b & -> & T4 & F4 & W4 & P4). specialize (P4 [] [] h (pt_nil h)). rewrite !app_nil_r in P4. cbn [app] in P4.
  destruct (block_run room max d (pp_flags p) (pp_promised p) h J T4 F4) as (cs & d' & E & PC & _). rewrite E. cbn [bind].
  eexists _, d'. split; [reflexivity|].
  match goal with |- frame_written _ _ _ _ ?x _ => replace x with (framed 5 (end_headers (pp_flags p)) (pp_id p) (octets4 (pp_promised p) ++ b) ++ block_framed (end_headers (pp_flags p)) (pp_promised p) cs) end.
  - eapply frw_push; [rewrite <- Eh0; exact P4|exact W4|exact PC].
  - pose proof (fh_framed KPushPromise (end_headers (pp_flags p)) (pp_id p) (octets4 (pp_promised p) ++ b) I) as X.
    change (kind_encode KPushPromise) with 5 in X. rewrite <- X, <- (set_end (pp_flags p)), blen_app. change (blen (octets4 (pp_promised p))) with 4.
    unfold stream_encode. rewrite (be_enc_4 (pp_promised p)) by exact J. rewrite <- !app_assoc, (N.add_comm 4). reflexivity.
Qed.

(** ** All frames *)
Lemma frame_runs room max dyn f : table_typed max dyn -> frame_typed f ->
  (exists b dyn', frame_encode room (table_of max dyn) f = Ok (table_of max dyn', b) /\ frame_written room max dyn f b dyn') \/
  (frame_encode room (table_of max dyn) f = Diverge /\ exists d, f = FData d /\ room = 0 /\ da_data d <> []).
Proof.
  intros T F. destruct f as [d|h|p|p|s|p|g|w|r]; cbn [frame_encode frame_typed] in *.
  - destruct (N.eq_dec room 0) as [R|R]; [destruct (da_data d) eqn:D|].
    + left. destruct (data_loop_run room (da_id d) (da_flags d) F (S (length (da_data d))) (da_data d)) as (cs & c & E & P1 & P2 & P3 & P4 & P5); [lia|right; exact D|].
      unfold data_encode. rewrite E. cbn [bind]. eexists _, dyn. split; [reflexivity|]. apply frw_data; assumption.
    + right. subst room. split; [|exists d; rewrite D; split; [reflexivity|split; [reflexivity|discriminate]]].
      assert (X : data_encode 0 d = Diverge) by (apply data_loop_zero; rewrite D; discriminate). rewrite X. reflexivity.
    + left. destruct (data_loop_run room (da_id d) (da_flags d) F (S (length (da_data d))) (da_data d)) as (cs & c & E & P1 & P2 & P3 & P4 & P5); [lia|left; lia|].
      unfold data_encode. rewrite E. cbn [bind]. eexists _, dyn. split; [reflexivity|]. apply frw_data; assumption.
  - left. destruct F as [I F]. unfold headers_encode. destruct (block_run room max dyn (hf_flags h) (hf_id h) (hf_fields h) I T F) as (cs & d' & E & PC & _).
    eexists _, d'. split; [exact E|]. apply frw_headers, PC.
  - left. destruct F as [I J]. eexists _, dyn. split; [reflexivity|]. unfold priority_encode, fh_new, dep_encode, stream_encode.
    rewrite fh_encode_octets by (exact I || lia). rewrite be_enc_4 by exact J. apply frw_priority.
  - left. apply push_run; assumption.
  - left. eexists _, dyn. split; [reflexivity|]. rewrite settings_encode_octets.
    + unfold frame_octets. assert (L : blen (concat (map entry_octets (entries_of s))) < 16777216).
      { rewrite entries_blen. pose proof (entries_of_length s). lia. }
      rewrite <- (N.mod_small _ _ L) at 1. apply frw_settings.
    + rewrite Forall_forall in F |- *. intros e He. split; [|exact (F e He)]. unfold entries_of, present in He.
      repeat match goal with H : In _ (_ ++ _) |- _ => apply in_app_or in H as [H|H] | H : In _ (match ?o with Some _ => _ | None => _ end) |- _ => destruct o end.
      all: repeat match goal with H : In _ _ |- _ => destruct H as [<-|H] | H : In _ [] |- _ => destruct H end; try (cbn [fst]; lia); contradiction.
  - left. eexists _, dyn. split; [reflexivity|]. unfold ping_encode. rewrite (fh_framed KPing _ 0 (pg_payload p)) by (unfold u32; lia).
    change (if pg_ack p then ACK else flag_zero) with (if pg_ack p then 1 else 0). apply frw_ping.
  - left. destruct F as (I & J & _). eexists _, dyn. split; [reflexivity|]. unfold goaway_encode. rewrite !be_enc_4 by assumption.
    replace (8 + blen (ga_debug g)) with (blen (octets4 (ga_last g) ++ octets4 (ga_code g) ++ ga_debug g)).
    + rewrite (fh_framed KGoAway) by (unfold u32; lia). apply frw_goaway.
    + rewrite !blen_app. change (blen (octets4 (ga_last g))) with 4. change (blen (octets4 (ga_code g))) with 4. lia.
  - left. destruct F as [I J]. eexists _, dyn. split; [reflexivity|]. unfold winupd_encode. rewrite be_enc_4 by assumption.
    change 4 with (blen (octets4 (wu_inc w))) at 1. rewrite (fh_framed KWindowUpdate _ _ _ I). apply frw_window.
  - left. destruct F as [I J]. eexists _, dyn. split; [reflexivity|]. unfold reset_encode. rewrite be_enc_4 by assumption.
    change 4 with (blen (octets4 (rs_code r))) at 1. rewrite (fh_framed KReset _ _ _ I). apply frw_reset.
Qed.
Lemma frame_one room max dyn f a d : frame_written room max dyn f a d -> forall b e, frame_written room max dyn f b e -> a = b /\ d = e.
Proof.
  intros A. destruct A as [x cs c P1 P2 P3 P4 P5|h cs d' P|p|p fs h l d1 cs d' P W C|s|p|g|w|r]; intros b e B.
  - inversion B as [? cs' c' Q1 Q2 Q3 Q4 Q5| | | | | | | |]; subst. 
    destruct (data_pieces_one room cs (da_data x) c cs' c') as [-> ->]; [repeat split; assumption|repeat split; assumption|]. auto.
  - inversion B as [|? cs' ? Q| | | | | | |]; subst. destruct (pieces_one _ _ _ _ _ _ _ P _ _ Q) as [-> ->]. auto.
  - inversion B; auto.
  - inversion B as [| | |? fs' h' l' d1' cs' ? Q W' C'| | | | |]; subst. destruct (pseudo_one _ _ _ _ P _ _ Q) as [-> ->].
    destruct (fields_one _ _ _ _ _ W _ _ W') as [-> ->]. destruct (pieces_one _ _ _ _ _ _ _ C _ _ C') as [-> ->]. auto.
  - inversion B; auto.
  - inversion B; auto.
  - inversion B; auto.
  - inversion B; auto.
  - inversion B; auto.
Qed.
Lemma frame_all room max dyn f t b : table_typed max dyn -> frame_typed f ->
  (frame_encode room (table_of max dyn) f = Ok (t, b) <-> exists dyn', t = table_of max dyn' /\ frame_written room max dyn f b dyn').
Proof.
  intros T F. destruct (frame_runs room max dyn f T F) as [(b' & d' & E & W)|(E & d & -> & R & D)]; rewrite E.
  - split.
    + intros H. injection H as <- <-. eauto.
    + intros (d & -> & H). destruct (frame_one _ _ _ _ _ _ H _ _ W) as [-> ->]. reflexivity.
  - split; [discriminate|]. intros (d' & _ & H). exfalso. inversion H as [? cs c P1 P2 P3 P4 P5| | | | | | | |]; subst.
    apply (P5 D). destruct c; [reflexivity|]. rewrite blen_cons in P4. lia.
Qed.
Lemma frame_ends room max dyn f : table_typed max dyn -> frame_typed f ->
  (frame_encode room (table_of max dyn) f = Diverge <-> exists d, f = FData d /\ room = 0 /\ da_data d <> []) /\
  (forall e, frame_encode room (table_of max dyn) f <> Err e) /\ frame_encode room (table_of max dyn) f <> Panic.
Proof.
  intros T F. destruct (frame_runs room max dyn f T F) as [(b' & d' & E & W)|(E & X)]; rewrite E.
  - repeat match goal with |- _ /\ _ => split end; try discriminate. split; [discriminate|]. intros (d & -> & R & D). exfalso.
    inversion W as [? cs c P1 P2 P3 P4 P5| | | | | | | |]; subst. apply (P5 D). destruct c; [reflexivity|]. rewrite blen_cons in P4. lia.
  - repeat match goal with |- _ /\ _ => split end; try discriminate. split; auto.
Qed.
