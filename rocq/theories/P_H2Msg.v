(** Lemmas on messages in HEADERS frames. *)
From Coq Require Import Ascii String NArith ZArith Lia Bool List ZifyBool ZifyNat ZifyN.
From Verif Require Import Base P_Base M_Header M_Url M_Http1 S_Http1 S_Http1Api S_Map P_Map P_Http1 P_Msg S_Utf8 S_Url P_Url P_UrlForm
  M_Std M_Helper M_Huffman S_Huffman P_Huffman M_Hpack S_Hpack S_HpackApi S_Near P_Hpack P_HpackTable P_HpackCodec P_HpackSync M_Frame M_H2 S_Frame S_H2Api P_Frame P_Settings P_Ctl P_Data P_H2.
Import ListNotations.
Local Open Scope N_scope.
Ltac Zify.zify_post_hook ::= Z.div_mod_to_equations.

(** ** Names *)
Lemma h2_name_eq a b : Forall h2_char a -> Forall h2_char b -> name_eq a b = true -> a = b.
Proof.
  intros Ha Hb E. apply clash_ascii in E; [|apply h2_ascii; assumption..|apply h2_clash_free; assumption].
  rewrite !h2_lower in E by assumption. exact E.
Qed.
Lemma h2_name_neq a b : Forall h2_char a -> Forall h2_char b -> a <> b -> name_eq a b = false.
Proof. intros Ha Hb N. destruct (name_eq a b) eqn:E; [|reflexivity]. apply h2_name_eq in E; [contradiction|assumption..]. Qed.
Lemma insert_fresh h n v : (forall e, In e h -> name_eq (fst e) n = false) -> hm_insert h n v = h ++ [(n, v)].
Proof.
  induction h as [|[n' v'] h IH]; intros H; [reflexivity|]. cbn [hm_insert app]. rewrite (H (n', v') (or_introl eq_refl) : name_eq n' n = false).
  f_equal. apply IH. intros e I. apply H. right. exact I.
Qed.

(** ** Fields *)
Lemma regular_cons f fs : regular (f :: fs) ->
  Forall h2_char (fst f) /\ ~ In (fst f) (map fst fs) /\ hd_error (fst f) <> Some 58 /\ regular fs.
Proof.
  intros (A & B & C). apply Forall_cons_iff in A as [A1 A2]. apply Forall_cons_iff in C as [C1 C2]. cbn [map] in B. apply NoDup_cons_iff in B as [B1 B2].
  split; [exact A1|]. split; [exact B1|]. split; [exact C1|]. split; [exact A2|]. split; assumption.
Qed.
Lemma fresh_after h f fs : regular (f :: fs) ->
  (forall e g, In e h -> In g (f :: fs) -> name_eq (fst e) (fst g) = false) ->
  forall e g, In e (h ++ [f]) -> In g fs -> name_eq (fst e) (fst g) = false.
Proof.
  intros R F e g I J. apply in_app_or in I as [I|[<-|[]]]; [apply F; [exact I|right; exact J]|].
  apply regular_cons in R as (A & B & _ & R). apply h2_name_neq; [exact A| |].
  - destruct R as (R & _). unfold h2_names in R. rewrite Forall_forall in R. exact (R g J).
  - intros E. apply B. rewrite E. apply List.in_map, J.
Qed.
Lemma regular_insert_all fs : forall h, regular fs -> (forall e g, In e h -> In g fs -> name_eq (fst e) (fst g) = false) ->
  hm_insert_all h fs = h ++ fs.
Proof.
  induction fs as [|[n v] fs IH]; intros h R F; [cbn; rewrite app_nil_r; reflexivity|]. unfold hm_insert_all. cbn [fold_left fst snd].
  rewrite insert_fresh by (intros e I; apply (F e (n, v)); [exact I|left; reflexivity]).
  change (hm_insert_all (h ++ [(n, v)]) fs = h ++ (n, v) :: fs). rewrite IH; [rewrite <- app_assoc; reflexivity| |].
  - apply regular_cons in R as (_ & _ & _ & R). exact R.
  - apply fresh_after; assumption.
Qed.
Lemma regular_collect fs : forall h, regular fs -> (forall e g, In e (hf_fields h) -> In g fs -> name_eq (fst e) (fst g) = false) ->
  hdr_all h fs = Ok (hf_set_fields h (hf_fields h ++ fs)).
Proof.
  induction fs as [|[n v] fs IH]; intros h R F; [cbn; rewrite app_nil_r; destruct h; reflexivity|]. cbn [hdr_all].
  pose proof (regular_cons _ _ R) as (A & B & C & R'). cbn [fst] in *.
  assert (E : hdr_field h (n, v) = Ok (hf_set_fields h (hf_fields h ++ [(n, v)]))).
  { unfold hdr_field. rewrite spec_hd_false by exact C. rewrite insert_fresh by (intros e I; apply (F e (n, v)); [exact I|left; reflexivity]). reflexivity. }
  rewrite E. cbn [bind]. rewrite IH; [cbn [hf_set_fields hf_fields]; rewrite <- app_assoc; reflexivity|exact R'|].
  apply fresh_after; assumption.
Qed.

(** ** Pseudo header fields *)
Lemma method_names_str m s : In (m, s) method_names -> method_str m = str s.
Proof. intros H. cbn in H. repeat (destruct H as [H|H]; [injection H as <- <-; reflexivity|]). destruct H. Qed.
Lemma known_names m : In m known_methods -> exists s, In (m, s) method_names.
Proof.
  intros H. cbn in H. repeat (destruct H as [<-|H]; [eexists; cbn; repeat (try (left; reflexivity); right); fail || (left; reflexivity)|]).
  all: try destruct H.
Qed.
Lemma lossy_utf8 s : is_utf8 s -> utf8_lossy s = s.
Proof. intros H. apply utf8_lossy_valid, utf8_valid_iff, H. Qed.
Lemma method_field h m : In m known_methods -> hdr_field h (str ":method", method_str m) = Ok (hf_set_parts h (pt_set_method (hf_parts h) (Some m))).
Proof.
  intros K. apply known_names in K as (s & K). unfold hdr_field. change (name_is_spec (str ":method")) with true.
  change (beq (str ":method") (str ":authority")) with false. change (beq (str ":method") (str ":method")) with true. cbv iota zeta.
  assert (E : method_of_str (utf8_lossy (method_str m)) = Ok m).
  { rewrite (method_names_str _ _ K), lossy_ascii by (eapply method_names_ascii, K). apply method_try_from. eauto. }
  rewrite E. reflexivity.
Qed.
Lemma authority_field h a : is_utf8 a -> hdr_field h (str ":authority", a) = Ok (hf_set_parts h (pt_set_authority (hf_parts h) (Some a))).
Proof. intros U. unfold hdr_field. change (name_is_spec (str ":authority")) with true. change (beq (str ":authority") (str ":authority")) with true. cbv iota zeta. rewrite lossy_utf8 by exact U. reflexivity. Qed.
Lemma path_field h p : is_utf8 p -> hdr_field h (str ":path", p) = Ok (hf_set_parts h (pt_set_path (hf_parts h) (Some p))).
Proof.
  intros U. unfold hdr_field. change (name_is_spec (str ":path")) with true. change (beq (str ":path") (str ":authority")) with false.
  change (beq (str ":path") (str ":method")) with false. change (beq (str ":path") (str ":path")) with true. cbv iota zeta. rewrite lossy_utf8 by exact U. reflexivity.
Qed.
Lemma legal_scheme_of_str s : legal_scheme s -> scheme_of_str (scheme_str s) = Ok s.
Proof.
  intros H. destruct H as [| | | | |b t Ha Ht Hl Hk]; [vm_compute; reflexivity..|]. cbn [scheme_str].
  unfold scheme_of_str. destruct (64 <? blen (b :: t)) eqn:L; [unfold blen in L; cbn [length] in L; lia|]. cbn in Hk.
  repeat match goal with |- (if beq ?x ?y then _ else _) = _ =>
    destruct (beq x y) eqn:?E; [match goal with K : beq x y = true |- _ => apply beq_eq in K; exfalso; apply Hk; rewrite K; vm_compute; tauto end|] end.
  reflexivity.
Qed.
Lemma scheme_field h s : legal_scheme s -> hdr_field h (str ":scheme", scheme_str s) = Ok (hf_set_parts h (pt_set_scheme (hf_parts h) (Some s))).
Proof.
  intros U. unfold hdr_field. change (name_is_spec (str ":scheme")) with true. change (beq (str ":scheme") (str ":authority")) with false.
  change (beq (str ":scheme") (str ":method")) with false. change (beq (str ":scheme") (str ":path")) with false.
  change (beq (str ":scheme") (str ":scheme")) with true. cbv iota zeta.
  rewrite lossy_utf8 by (apply legal_scheme_utf8, U). rewrite legal_scheme_of_str by exact U. reflexivity.
Qed.
Lemma status_field h c : 100 <= c <= 999 -> hdr_field h (str ":status", three_digits c) = Ok (hf_set_parts h (pt_set_status (hf_parts h) (Some c))).
Proof.
  intros R. unfold hdr_field. change (name_is_spec (str ":status")) with true. change (beq (str ":status") (str ":authority")) with false.
  change (beq (str ":status") (str ":method")) with false. change (beq (str ":status") (str ":path")) with false.
  change (beq (str ":status") (str ":scheme")) with false. change (beq (str ":status") (str ":status")) with true. cbv iota zeta.
  rewrite lossy_ascii by (apply three_digits_ascii, R).
  assert (E : status_from_bytes (three_digits c) = Ok c) by (apply from_bytes_spec; [apply bytes_ok_of, three_digits_ascii, R|auto]).
  rewrite E. reflexivity.
Qed.

Definition request_parts m a s p : parts := mkParts (Some m) (Some s) (Some a) (Some p) None.
Lemma request_collect id fl m a s p fs : In m known_methods -> legal_scheme s -> is_utf8 a -> is_utf8 p -> regular fs ->
  hdr_all (mkHeaders id None [] parts_default fl) (request_fields m a s p fs) = Ok (mkHeaders id None fs (request_parts m a s p) fl).
Proof.
  intros M S A P R. unfold request_fields. cbn [app hdr_all]. rewrite method_field by exact M. cbn [bind].
  rewrite authority_field by exact A. cbn [bind]. rewrite scheme_field by exact S. cbn [bind]. rewrite path_field by exact P. cbn [bind].
  rewrite regular_collect; [reflexivity|exact R|]. intros e g [].
Qed.
Lemma response_collect id fl c fs : 100 <= c <= 999 -> regular fs ->
  hdr_all (mkHeaders id None [] parts_default fl) (response_fields c fs) = Ok (mkHeaders id None fs (parts_response c) fl).
Proof.
  intros C R. unfold response_fields. cbn [hdr_all]. rewrite status_field by exact C. cbn [bind].
  rewrite regular_collect; [reflexivity|exact R|]. intros e g [].
Qed.

(** ** One frame *)
Lemma single_chunk max fs : forall t t' b cur, encode_headers t fs = Ok (t', b) -> total_size fs + blen cur + blen b <= max ->
  block_chunks max t fs cur = Ok (t', [cur ++ b]).
Proof.
  induction fs as [|f fs IH]; intros t t' b cur E L; cbn [encode_headers block_chunks] in *.
  - injection E as <- <-. rewrite app_nil_r. reflexivity.
  - destruct (encode_header t f) as [[t1 b1]| | |]; try discriminate E. cbn [bind] in *.
    destruct (encode_headers t1 fs) as [[t2 b2]| | |] eqn:E2; try discriminate E. cbn [bind] in *. injection E as <- <-.
    rewrite total_size_cons, blen_app in L. unfold size_of in L.
    destruct (N.ltb_spec max (blen (fst f) + blen (snd f) + blen cur)) as [C|_]; [lia|].
    rewrite (IH t1 t2 b2 (cur ++ b1) E2) by (rewrite blen_app; lia). cbn [bind]. rewrite <- app_assoc. reflexivity.
Qed.
Lemma headers_single max t h t' b : encode_headers t (hf_fields h) = Ok (t', b) -> hf_id h < 4294967296 -> blen b < 16777216 ->
  total_size (hf_fields h) + blen b <= max ->
  headers_encode max t h = Ok (t', frame_octets 1 (set_end_headers (hf_flags h)) (hf_id h) b).
Proof.
  intros E I L M. unfold headers_encode, block_encode. rewrite (single_chunk max _ _ _ _ [] E) by (rewrite blen_nil; lia). cbn [bind app].
  rewrite block_frames_octets; [reflexivity|exact I|]. constructor; [exact L|constructor].
Qed.
Lemma headers_deliver td L es eh id b td' fs h' rest : decode_headers td b = (td', Ok fs) -> total_size fs <= L ->
  hdr_all (mkHeaders id None [] parts_default (flags_of es eh false false)) fs = Ok h' -> blen b < 16777216 -> id < 2147483648 ->
  recv td L (frame_octets 1 (flags_of es eh false false) id b ++ rest) = (td', Ok (FHeaders h', rest)).
Proof.
  intros D T H B I. rewrite recv_octets; [|exact B|exact I|exists es, eh, false, false; reflexivity].
  unfold frame_parse. rewrite trim_unpadded by (cbn [fh_flag]; apply flags_of_view). cbn [fh_kind].
  change (kind_new 1) with KHeaders. cbv iota. unfold headers_new. cbn [fh_id fh_flag].
  rewrite headers_parse_plain by (cbn [hf_flags]; apply flags_of_view). rewrite D.
  pose proof (hdr_collect_within L fs 0 (mkHeaders id None [] parts_default (flags_of es eh false false)) ltac:(lia)) as W. rewrite H in W.
  rewrite W. reflexivity.
Qed.
Lemma set_eh es eh : set_end_headers (flags_of es eh false false) = flags_of es true false false.
Proof. apply (flags_of_view es eh false false). Qed.
Lemma message_sync te td fs id es eh max L P h' rest : connection te td fs -> id < 2147483648 -> total_size fs <= L ->
  hdr_all (mkHeaders id None [] parts_default (flags_of es true false false)) fs = Ok h' ->
  exists te' td' b, encode_headers te fs = Ok (te', b) /\ decode_headers td b = (td', Ok fs) /\
    (blen b < 16777216 -> total_size fs + blen b <= max ->
     headers_encode max te (mkHeaders id None fs P (flags_of es eh false false)) = Ok (te', frame_octets 1 (flags_of es true false false) id b) /\
     recv td L (frame_octets 1 (flags_of es true false false) id b ++ rest) = (td', Ok (FHeaders h', rest))).
Proof.
  intros C I T H. destruct (connection_sync _ _ _ C) as (te' & td' & b & E & D). exists te', td', b. split; [exact E|]. split; [exact D|].
  intros B M. split.
  - rewrite (headers_single max te _ te' b); [cbn [hf_flags hf_id]; rewrite set_eh; reflexivity|exact E|cbn; lia|exact B|exact M].
  - eapply headers_deliver; eassumption.
Qed.

(** ** The size of an encoded block *)
Definition words_short : bool := forallb (fun b => (length (huff_word b) <=? 30)%nat) (map N.of_nat (seq 0 256)).
Lemma words_short_ok : words_short = true.
Proof. vm_compute. reflexivity. Qed.
Lemma huff_word_len b : b < 256 -> (length (huff_word b) <= 30)%nat.
Proof.
  intros H. pose proof words_short_ok as W. unfold words_short in W. rewrite forallb_forall in W.
  specialize (W b). apply Nat.leb_le, W. rewrite in_map_iff. exists (N.to_nat b). split; [lia|]. apply in_seq. lia.
Qed.
Lemma num_bits_len n v : length (num_bits n v) = n.
Proof. induction n; cbn [num_bits length]; congruence. Qed.
Lemma text_bits_len l : length (text_bits l) = (8 * length l)%nat.
Proof. induction l as [|b l IH]; [reflexivity|]. unfold text_bits in *. cbn [flat_map length]. rewrite app_length, num_bits_len, IH. lia. Qed.
Lemma words_len s : bytes_ok s -> (length (flat_map huff_word s) <= 30 * length s)%nat.
Proof.
  induction s as [|b s IH]; intros H; [cbn; lia|]. apply bytes_ok_cons in H as [H1 H2]. cbn [flat_map length]. rewrite app_length.
  pose proof (huff_word_len b H1). specialize (IH H2). lia.
Qed.
Lemma coded_len b s : bytes_ok s -> huff_coded b s -> blen b <= 4 * blen s.
Proof.
  intros B (pad & P & E). apply (f_equal (@length bool)) in E. rewrite text_bits_len, app_length, repeat_length in E.
  pose proof (words_len s B). unfold blen. destruct s as [|x s].
  - cbn [flat_map length] in *. lia.
  - cbn [length] in *. lia.
Qed.
Lemma encode_string_len s b : bytes_ok s -> blen s < 2 ^ 26 -> encode_string s = Ok b -> blen b <= 5 + 4 * blen s.
Proof.
  intros B L E. unfold encode_string in E. destruct (huff_encode_coded s B) as (v & Ev & _ & C). rewrite Ev in E. cbn [bind] in E. injection E as <-.
  pose proof (coded_len v s B C) as K. rewrite blen_app.
  assert (Q : (length (encode_integer (blen v) 7 128) <= 5)%nat).
  { apply encode_integer_length; [lia|]. change (2 ^ 7 - 1 + 2 ^ 28) with 268435583. change (2 ^ 26) with 67108864 in L. lia. }
  unfold blen at 1. lia.
Qed.
Lemma encode_string_lower_len s b : Forall (fun b => b < 128) s -> blen s < 2 ^ 26 -> encode_string_lower s = Ok b -> blen b <= 5 + 4 * blen s.
Proof.
  intros B L E. change (encode_string_lower s) with (encode_string (map lower_ascii s)) in E.
  assert (Q : blen (map lower_ascii s) = blen s) by (unfold blen; rewrite map_length; reflexivity).
  apply encode_string_len in E; [rewrite Q in E; exact E|apply lower_ok, ascii_ok, B|rewrite Q; exact L].
Qed.

Lemma encode_header_len t f t' b : sendable f -> near (hi_table t) f -> unconfused (hi_table t) f -> encode_header t f = Ok (t', b) ->
  blen b <= 4 * size_of f.
Proof.
  intros (Sn & Sv & Ln & Lv) NR UC E. destruct f as [n v]. cbn [fst snd] in *. unfold size_of. cbn [fst snd].
  assert (LIT : forall y, (x <- encode_literal (n, v) true ;; t' <- add_header t (n, v) ;; Ok (t', x)) = Ok (y, b) -> blen b <= 4 * (blen n + blen v + 32)).
  { intros y H. unfold encode_literal in H. cbn [fst snd] in H.
    destruct (encode_string_lower n) as [bn| | |] eqn:En; try discriminate H. cbn [bind] in H.
    destruct (encode_string v) as [bv| | |] eqn:Ev; try discriminate H. cbn [bind] in H.
    destruct (add_header t (n, v)); try discriminate H. cbn [bind] in H. injection H as _ <-.
    apply encode_string_lower_len in En; [|assumption..]. apply encode_string_len in Ev; [|assumption..].
    rewrite blen_cons, blen_app. lia. }
  assert (IDX : forall i, i <= 126 -> blen (encode_indexed i) <= 4 * (blen n + blen v + 32)).
  { intros i Hi. unfold encode_indexed. pose proof (encode_integer_length i 7 128 ltac:(lia) ltac:(lia)) as Q. unfold blen at 1. lia. }
  unfold encode_header, find_header in E. destruct (static_named n) eqn:SN.
  - destruct (static_pos n v) as [k|] eqn:E1; [|destruct (static_pos n []) as [k|] eqn:E2].
    + injection E as _ <-. apply IDX. destruct (static_index [] n v k E1) as (K & _). lia.
    + destruct (static_index [] n [] k E2) as (K & _). unfold encode_indexed_name in E. cbn [snd] in E.
      destruct (encode_string v) as [bv| | |] eqn:Ev; try discriminate E. cbn [bind] in E.
      destruct (add_header t (n, v)); try discriminate E. cbn [bind] in E. injection E as _ <-.
      apply encode_string_len in Ev; [|assumption..]. rewrite blen_app.
      pose proof (encode_integer_length k 6 64 ltac:(lia) ltac:(lia)) as Q. unfold blen at 1. lia.
    + eapply LIT, E.
  - rewrite (static_named_eq n v Sn) in SN. pose proof (dyn_find_first (hi_table t) n v Sn UC 0) as DF.
    destruct (dyn_find 0 (hi_table t) n v) as [i|]; [|eapply LIT, E].
    injection E as _ <-. apply IDX. destruct DF as (j & e & -> & H1 & H2 & H3).
    apply (near_index _ _ _ _ SN H1 H2 H3) in NR. change (length STATIC_TABLE) with 61%nat. lia.
Qed.
Lemma block_len J fs : run_ok J -> forall te evs t' b, idx_inv te -> J (hi_max te) (hi_table te) (EvBlock fs :: evs) ->
  encode_headers te fs = Ok (t', b) -> blen b <= 4 * total_size fs.
Proof.
  intros (J1 & J2 & J3). induction fs as [|f fs IH]; intros te evs t' b I H E.
  - injection E as _ <-. rewrite blen_nil. apply N.le_0_l.
  - destruct (J1 _ _ _ _ _ H) as (S & NR & UC & K).
    destruct (encode_field te f I S UC) as (b1 & E1 & _). pose proof (after_field_inv te f I) as I'.
    cbn [encode_headers] in E. rewrite E1 in E. cbn [bind] in E.
    destruct (encode_headers (idx_of (hi_max te) _) fs) as [[t2 b2]| | |] eqn:E2; try discriminate E. cbn [bind] in E. injection E as _ <-.
    specialize (IH _ evs _ _ I' K E2). apply encode_header_len in E1; [|assumption..].
    rewrite blen_app, total_size_cons. lia.
Qed.
Lemma exchange_more J evs : run_ok J -> forall te td more, paired te td -> J (hi_max te) (hi_table te) (evs ++ more) ->
  exists te' td' got, exchange te td evs = Ok (te', td', got) /\ idx_inv te' /\ J (hi_max te') (hi_table te') more.
Proof.
  intros RJ. induction evs as [|[fs|m] evs IH]; intros te td more P H.
  - exists te, td, []. split; [reflexivity|]. split; [apply P|exact H].
  - destruct (block_sync J fs RJ te td (evs ++ more) P H) as (te1 & b & E & M & I & K & D).
    destruct (IH te1 _ more (conj I eq_refl) K) as (te2 & td2 & got & E2 & P2). eexists. eexists. eexists. split; [|exact P2].
    cbn [exchange]. rewrite E. cbn [bind]. rewrite D. cbn [bind]. rewrite E2. reflexivity.
  - destruct P as [I ->]. destruct RJ as (J1 & J2 & J3).
    assert (ID : idx_inv (idx_of (hi_max te) (map lower_field (hi_table te)))).
    { apply idx_of_inv. rewrite total_lower. apply inv_idx_of, I. }
    destruct (IH (idx_of m (newest m (hi_table te))) (idx_of m (newest m (map lower_field (hi_table te)))) more) as (te2 & td2 & got & E2 & P2).
    { split; [apply newest_inv|]. cbn [hi_max hi_table idx_of]. rewrite newest_lower. reflexivity. }
    { cbn [hi_max hi_table idx_of]. apply J3 with (max := hi_max te). exact H. }
    exists te2, td2, got. split; [|exact P2]. cbn [exchange].
    rewrite (set_max_spec te m I), (set_max_spec _ m ID). cbn [bind hi_max hi_table idx_of]. exact E2.
Qed.
Lemma connection_len te td fs te' b : connection te td fs -> encode_headers te fs = Ok (te', b) -> blen b <= 4 * total_size fs.
Proof.
  intros (m & evs & got & X & S & H & K) E.
  assert (C : concat (sent (evs ++ [EvBlock fs])) = concat (sent evs) ++ fs).
  { rewrite sent_app, concat_app. cbn [sent concat]. rewrite app_nil_r. reflexivity. }
  pose proof (h2_pool _ S H) as P.
  assert (G : forall J, run_ok J -> J m [] (evs ++ [EvBlock fs]) -> blen b <= 4 * total_size fs).
  { intros J RJ HJ. destruct (exchange_more J evs RJ (hi_with_size m) (hi_with_size m) [EvBlock fs] (fresh_pair m)) as (t1 & t2 & g & E1 & I & HJ'); [exact HJ|].
    rewrite X in E1. injection E1 as <- <- <-. eapply block_len; eassumption. }
  apply (G (by_place (concat (sent evs) ++ fs))); [apply by_place_ok, P|]. split; [exact K|]. split; [intros g []|rewrite C; apply incl_refl].
Qed.
