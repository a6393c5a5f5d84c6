(** C28-C33, C62, C63: HPACK. *)
From Coq Require Import Ascii String NArith Bool List.
From Verif Require Import Base S_Utf8 P_Base M_Header M_Huffman M_Hpack.
From Verif Require Import S_Http1 S_Map S_Huffman S_Hpack S_HpackApi P_Hpack P_HpackTable P_HpackCodec P_HpackSync.
Import ListNotations.
Local Open Scope N_scope.

(** C28. What the encoder writes is the representation of RFC 7541 5.1 (with the bits of [lead] above the
    prefix), and the decoder gives the value back and the octets used, whatever follows. *)
Theorem C28_encode_is_rfc : forall v p lead, 1 <= p <= 8 -> lead < 256 ->
  int_repr p (lead / 2 ^ p * 2 ^ p) (encode_integer v p lead) v.
Proof. exact encode_integer_repr. Qed.
Print Assumptions C28_encode_is_rfc.
Theorem C28_integer_roundtrip : forall v p lead rest, 1 <= p <= 8 -> lead < 256 -> v < 2 ^ p - 1 + 2 ^ 28 ->
  decode_integer (encode_integer v p lead ++ rest) p = Ok (v, blen (encode_integer v p lead)).
Proof. exact integer_round_trip. Qed.
Print Assumptions C28_integer_roundtrip.
(** The limit is exact: larger values are rejected. *)
Theorem C28_too_large : forall v p lead rest, 1 <= p <= 8 -> lead < 256 -> 2 ^ p - 1 + 2 ^ 28 <= v ->
  decode_integer (encode_integer v p lead ++ rest) p = Err (EHttp2 (DecoderErr (IntegerDecodingError TooManyOctets))).
Proof. exact integer_too_large. Qed.
Print Assumptions C28_too_large.
(** The decoder reads every representation of at most five octets, padded ones included, and nothing else. *)
Theorem C28_decode_complete : forall p fl l v rest, 1 <= p <= 8 -> flag_bits p fl -> int_repr p fl l v ->
  (length l <= 5)%nat -> decode_integer (l ++ rest) p = Ok (v, blen l).
Proof. exact decode_integer_repr. Qed.
Print Assumptions C28_decode_complete.
Theorem C28_decode_sound : forall buf p v n, 1 <= p <= 8 -> bytes_ok buf -> decode_integer buf p = Ok (v, n) ->
  exists fl l rest, buf = l ++ rest /\ flag_bits p fl /\ int_repr p fl l v /\ n = blen l /\ n <= 5.
Proof. exact decode_integer_exact. Qed.
Print Assumptions C28_decode_sound.
(** RFC 7541 C.1.2: 1337 with a 5-bit prefix. *)
Example C28_nonvacuous : encode_integer 1337 5 0xe0 = [0xff; 0x9a; 0x0a] /\
  decode_integer [0xff; 0x9a; 0x0a; 7] 5 = Ok (1337, 3).
Proof. split; vm_compute; reflexivity. Qed.

(** C29. Every history of insertions and changes of the maximum: no panic, the recorded size is the sum of
    the entry sizes and is within the maximum. *)
Theorem C29_size_invariant : forall max l, exists t, t_run max l = Ok t /\
  hi_get_size t = fold_right (fun f n => blen (fst f) + blen (snd f) + 32 + n) 0 (hi_to_vec t) /\
  hi_get_size t <= hi_get_max t /\ hi_get_max t = fst (rfc_run max l).
Proof.
  intros max l. destruct (t_run_spec max l) as (t & E & [I1 I2] & R). exists t. split; [exact E|]. split; [exact I1|].
  split; [exact I2|]. rewrite <- R. reflexivity.
Qed.
Print Assumptions C29_size_invariant.
(** The same for decoders that have read arbitrary blocks. *)
Theorem C29_decoder_invariant : forall t, decoder_reach t ->
  hi_get_size t = fold_right (fun f n => blen (fst f) + blen (snd f) + 32 + n) 0 (hi_to_vec t) /\
  hi_get_size t <= hi_get_max t.
Proof. intros t H. apply reach_inv in H. exact H. Qed.
Print Assumptions C29_decoder_invariant.
Example C29_nonvacuous : exists t,
  t_run 100 [TAdd (str "a", str "b"); TAdd (str "c", str "dd"); TAdd (str "e", str "f"); TMax 40] = Ok t /\
  hi_to_vec t = [(str "e", str "f")] /\ hi_get_size t = 34.
Proof. eexists. split; [vm_compute; reflexivity|]. split; reflexivity. Qed.

(** C30. The table is the queue of RFC 7541 section 4. *)
Theorem C30_eviction_queue : forall max l, exists t, t_run max l = Ok t /\ hi_to_vec t = snd (rfc_run max l).
Proof.
  intros max l. destruct (t_run_spec max l) as (t & E & _ & R). exists t. split; [exact E|]. rewrite <- R. reflexivity.
Qed.
Print Assumptions C30_eviction_queue.
(** ... [newest] being the longest initial segment that fits. *)
Theorem C30_newest_is_longest : forall max l, total_size (newest max l) <= max /\
  exists rest, l = newest max l ++ rest /\
    match rest with [] => True | x :: _ => max < total_size (newest max l ++ [x]) end.
Proof. intros max l. split; [apply newest_size|apply newest_longest]. Qed.
Print Assumptions C30_newest_is_longest.
(** Indices 62, 63, ... are the entries from the newest on; those beyond the end, and 0, fail. *)
Theorem C30_index : forall t j, get_from_index t (62 + N.of_nat j) = nth_error (hi_to_vec t) j.
Proof.
  intros t j. rewrite get_from_index_app. destruct (N.eqb_spec (62 + N.of_nat j) 0) as [A|_]; [destruct j; discriminate A|].
  replace (N.to_nat (62 + N.of_nat j - 1)) with (length STATIC_TABLE + j)%nat.
  - rewrite nth_error_app2 by apply PeanoNat.Nat.le_add_r. f_equal. rewrite PeanoNat.Nat.add_comm, PeanoNat.Nat.add_sub. reflexivity.
  - rewrite static_length, N2Nat.inj_sub, N2Nat.inj_add, Nnat.Nat2N.id. reflexivity.
Qed.
Print Assumptions C30_index.
Theorem C30_index_fails : forall t i, i = 0 \/ 61 + N.of_nat (length (hi_to_vec t)) < i -> get_from_index t i = None.
Proof. exact index_fails. Qed.
Print Assumptions C30_index_fails.
Example C30_nonvacuous : rfc_run 100 [TAdd (str "a", str "b"); TAdd (str "c", str "dd"); TAdd (str "e", str "f"); TMax 70] =
  (70, [(str "e", str "f"); (str "c", str "dd")]).
Proof. vm_compute. reflexivity. Qed.
(** An entry larger than the table empties it. *)
Example C30_too_large_entry : snd (rfc_run 40 [TAdd (str "a", str "b"); TAdd (str "abcdef", str "ghij")]) = [].
Proof. vm_compute. reflexivity. Qed.

(** C31. An encoder and a decoder of the same size, any sequence of header blocks and of changes of the
    maximum made on both sides: every block is read back as sent (names in lower case), and the tables
    stay the same.
    Partial: names that the library's name comparison confuses are excluded ([clash_free]), and the
    dynamic table must hold at most 65 entries: because all fields have size at least [k] and the
    maximum stays below 66 k ... *)
Theorem C31_sync_partial : forall m evs k,
  Forall sendable (concat (sent evs)) ->
  (forall f g, In f (concat (sent evs)) -> In g (concat (sent evs)) -> clash_free (fst f) (fst g)) ->
  Forall (fun f => k <= size_of f) (concat (sent evs)) ->
  m < 66 * k -> Forall (fun m => m < 66 * k) (maxima evs) ->
  exists te td, exchange (hi_with_size m) (hi_with_size m) evs = Ok (te, td, map (map lower_field) (sent evs)) /\
    hi_to_vec td = map lower_field (hi_to_vec te) /\ hi_get_size td = hi_get_size te /\ hi_get_max td = hi_get_max te.
Proof. intros m evs k S C. apply sync_by_size. split; assumption. Qed.
Print Assumptions C31_sync_partial.
(** ... or because no more than 66 fields are sent, with no condition on the sizes. *)
Theorem C31_sync_few_partial : forall m evs,
  Forall sendable (concat (sent evs)) ->
  (forall f g, In f (concat (sent evs)) -> In g (concat (sent evs)) -> clash_free (fst f) (fst g)) ->
  (length (concat (sent evs)) <= 66)%nat ->
  exists te td, exchange (hi_with_size m) (hi_with_size m) evs = Ok (te, td, map (map lower_field) (sent evs)) /\
    hi_to_vec td = map lower_field (hi_to_vec te) /\ hi_get_size td = hi_get_size te /\ hi_get_max td = hi_get_max te.
Proof. intros m evs S C. apply sync_by_count. split; assumption. Qed.
Print Assumptions C31_sync_few_partial.
(** Names HTTP/2 allows never clash: what arrives is what was sent. *)
Theorem C31_sync_http2_partial : forall m evs k,
  Forall sendable (concat (sent evs)) -> Forall (fun f => Forall h2_char (fst f)) (concat (sent evs)) ->
  Forall (fun f => k <= size_of f) (concat (sent evs)) ->
  m < 66 * k -> Forall (fun m => m < 66 * k) (maxima evs) ->
  exists te td, exchange (hi_with_size m) (hi_with_size m) evs = Ok (te, td, sent evs).
Proof.
  intros m evs k S H K M Ms. destruct (sync_by_size m evs k (h2_pool _ S H) K M Ms) as (te & td & E & _).
  exists te, td. rewrite E, h2_lower_blocks by exact H. reflexivity.
Qed.
Print Assumptions C31_sync_http2_partial.
(** Refuted in general: with 66 entries in the table the oldest has index 127, which takes two octets; the
    decoder reads one.  All names here are HTTP/2 names and the maximum is the default. *)
Definition small_field (i : nat) : hfield := ([97 + N.of_nat (Nat.div i 26); 97 + N.of_nat (Nat.modulo i 26)], []).
Theorem C31_many_entries_refuted : exists evs e,
  Forall sendable (concat (sent evs)) /\ Forall (fun f => Forall h2_char (fst f)) (concat (sent evs)) /\
  length (concat (sent evs)) = 67%nat /\ exchange hi_new hi_new evs = Err e.
Proof.
  exists [EvBlock (map small_field (seq 0 66)); EvBlock [small_field 0]]. eexists.
  split; [apply sendableb_ok; vm_compute; reflexivity|]. split; [apply h2_charb_ok; vm_compute; reflexivity|].
  split; [reflexivity|]. vm_compute. reflexivity.
Qed.
Print Assumptions C31_many_entries_refuted.
(** Refuted in general: "x-q" is taken for "x-1" sent before. *)
Theorem C31_confused_names_refuted : exists evs te td got,
  Forall sendable (concat (sent evs)) /\
  exchange hi_new hi_new evs = Ok (te, td, got) /\ got <> map (map lower_field) (sent evs).
Proof.
  exists [EvBlock [(str "x-1", str "v")]; EvBlock [(str "x-Q", str "v")]]. eexists. eexists. eexists.
  split; [apply sendableb_ok; vm_compute; reflexivity|]. split; [vm_compute; reflexivity|]. vm_compute. discriminate.
Qed.
Print Assumptions C31_confused_names_refuted.
Definition two_requests : list hevent :=
  [EvBlock [(str ":method", str "GET"); (str ":scheme", str "https"); (str ":path", str "/index");
            (str ":authority", str "example.com"); (str "x-request-identifier", str "0123456789abcdef")];
   EvMax 130;
   EvBlock [(str ":method", str "PUT"); (str ":path", str "/other/path/to/file"); (str "x-request-identifier", str "0123456789abcdef")]].
Example C31_nonvacuous : Forall sendable (concat (sent two_requests)) /\
  Forall (fun f => Forall h2_char (fst f)) (concat (sent two_requests)) /\
  Forall (fun f => 42 <= size_of f) (concat (sent two_requests)) /\ Forall (fun m => m < 66 * 42) (maxima two_requests).
Proof.
  split; [apply sendableb_ok; vm_compute; reflexivity|]. split; [apply h2_charb_ok; vm_compute; reflexivity|].
  split; [apply Forall_forall; intros f Hf; apply N.leb_le; revert f Hf; apply forallb_forall; vm_compute; reflexivity|].
  constructor; [reflexivity|constructor].
Qed.
Example C31_runs : exists te td, exchange (hi_with_size 2000) (hi_with_size 2000) two_requests = Ok (te, td, sent two_requests) /\
  length (hi_to_vec td) = 2%nat.
Proof. eexists. eexists. split; [vm_compute; reflexivity|]. reflexivity. Qed.

(** C32. On every byte string, in every reachable state: no panic, the errors are decoding errors, a list
    of headers has at most one header per octet ... *)
Theorem C32_no_panic : forall t buf, decoder_reach t ->
  snd (decode_headers t buf) <> Panic /\
  (forall e, snd (decode_headers t buf) = Err e ->
     (exists d, e = EHttp2 (DecoderErr d)) \/ e = EHttp2 (HuffmanErr PaddingTooLarge)) /\
  (forall fs, snd (decode_headers t buf) = Ok fs -> (length fs <= length buf)%nat).
Proof.
  intros t buf H. apply reach_inv in H. destruct (decode_outcomes t buf H) as [A B].
  split; [exact A|]. split; [exact B|]. apply decode_count, H.
Qed.
Print Assumptions C32_no_panic.
(** ... and it does not return exactly when some prefix decodes to headers and is followed by a dynamic
    table size update (an octet 001xxxxx). *)
Theorem C32_terminates_partial : forall t buf, decoder_reach t -> bytes_ok buf ->
  (snd (decode_headers t buf) = Diverge <->
   exists pre x post t' fs, buf = pre ++ x :: post /\ 32 <= x < 64 /\ decode_headers t pre = (t', Ok fs)).
Proof. intros t buf H. apply decode_diverge_iff, reach_inv, H. Qed.
Print Assumptions C32_terminates_partial.
Theorem C32_refuted : exists buf, bytes_ok buf /\ snd (decode_headers hi_new buf) = Diverge.
Proof.
  exists [0x20]. split; [apply bytes_ok_cons; split; [reflexivity|apply bytes_ok_nil]|]. vm_compute. reflexivity.
Qed.
Print Assumptions C32_refuted.
(** Decoding is compositional: blocks may be fed one after the other or together. *)
Theorem C32_composes : forall t a b t1 fs, decoder_reach t -> decode_headers t a = (t1, Ok fs) ->
  decode_headers t (a ++ b) = let '(t2, r) := decode_headers t1 b in (t2, l <- r ;; Ok (fs ++ l)).
Proof. intros t a b t1 fs H E. apply reach_inv in H. apply (decode_headers_app t a b H t1 fs E). Qed.
Print Assumptions C32_composes.
Example C32_nonvacuous : exists t, decoder_reach t /\
  snd (decode_headers t [0x82; 0xbe]) = Ok [(str ":method", str "GET"); (str "ab", str "c")] /\
  (exists e, snd (decode_headers t [0x82; 0xbf]) = Err e) /\ snd (decode_headers t [0x82; 0x3f]) = Diverge.
Proof.
  exists (fst (decode_headers hi_new [0x40; 2; 97; 98; 1; 99])). split; [apply dr_block, dr_new|].
  split; [vm_compute; reflexivity|]. split; [eexists; vm_compute; reflexivity|vm_compute; reflexivity].
Qed.

(** C33. The static table, up to one entry. *)
Theorem C33_static_table_partial : forall t i, 1 <= i <= 61 -> i <> 15 ->
  exists e, nth_error rfc_static (N.to_nat (i - 1)) = Some e /\ get_from_index t i = Some (rfc_entry e).
Proof. exact static_table_entry. Qed.
Print Assumptions C33_static_table_partial.
Theorem C33_static_table_refuted : forall t, nth_error rfc_static 14 = Some ("accept-charset", "")%string /\
  get_from_index t 15 = Some (str "accept-", []).
Proof. intros t. split; reflexivity. Qed.
Print Assumptions C33_static_table_refuted.
(** The search returns an entry with the name searched, in lower case (dynamic entries: equal under the
    library's name comparison), and with the value searched when it says so. *)
Theorem C33_search_sound : forall t n v i w, find_header t (n, v) = Some (i, w) ->
  exists e, get_from_index t i = Some e /\ (w = true -> snd e = v) /\
    (i <= 61 -> fst e = map lower_ascii n) /\ (61 < i -> w = true /\ name_eq (fst e) n = true /\ In e (hi_to_vec t)).
Proof. exact search_sound. Qed.
Print Assumptions C33_search_sound.
(** Every field of the static table is sent as its index, whatever is in the dynamic table. *)
Theorem C33_static_encoded : forall t i f, 1 <= i <= 61 -> i <> 15 -> rfc_lookup [] i = Some f ->
  encode_header t f = Ok (t, [128 + i]).
Proof. exact static_encoded. Qed.
Print Assumptions C33_static_encoded.
Example C33_nonvacuous : find_header hi_new (str "Cache-Control", str "no-cache") = Some (24, false) /\
  get_from_index hi_new 24 = Some (str "cache-control", []) /\ rfc_lookup [] 16 = Some (str "accept-encoding", str "gzip, deflate").
Proof. split; [|split]; vm_compute; reflexivity. Qed.

(** C62. The decoder reads every header block of RFC 7541 as its header list and updates its table
    accordingly.  Partial: without size updates, whole-field indices below 127, index 15 unused. *)
Theorem C62_reads_rfc_blocks_partial : forall max dyn l fs dyn', total_size dyn <= max ->
  block_repr rfc_lookup (fun i => i < 127 /\ i <> 15) (fun i => i <> 15) max dyn l fs dyn' ->
  decode_headers (mkIdx dyn (total_size dyn) max) l = (mkIdx dyn' (total_size dyn') max, Ok fs).
Proof. intros max dyn l fs dyn' T H. apply (decode_rfc_block max dyn l fs dyn' T H). Qed.
Print Assumptions C62_reads_rfc_blocks_partial.
(** Refuted for the whole format: index 15, and index 127 with 66 dynamic entries. *)
Theorem C62_index_15_refuted : rfc_block 4096 [] [128 + 15] [(str "accept-charset", [])] [] /\
  snd (decode_headers hi_new [128 + 15]) = Ok [(str "accept-", [])].
Proof.
  split; [|vm_compute; reflexivity]. apply (b_cons _ _ _ _ [] [128 + 15] _ [] [] []); [|constructor].
  apply (f_indexed _ _ _ _ _ 15); [exact I|apply int_short; reflexivity|reflexivity].
Qed.
Print Assumptions C62_index_15_refuted.
Theorem C62_index_127_refuted : exists dyn f, total_size dyn <= 4096 /\
  rfc_block 4096 dyn [255; 0] [f] dyn /\
  exists e, snd (decode_headers (mkIdx dyn (total_size dyn) 4096) [255; 0]) = Err e.
Proof.
  exists (map small_field (seq 0 66)), (small_field 65). split; [vm_compute; discriminate|]. split.
  - apply (b_cons _ _ _ _ _ [255; 0] _ (map small_field (seq 0 66)) [] []); [|constructor].
    apply (f_indexed _ _ _ _ _ 127); [exact I| |vm_compute; reflexivity].
    apply (int_long 7 128 [0] 0). constructor. reflexivity.
  - eexists. vm_compute. reflexivity.
Qed.
Print Assumptions C62_index_127_refuted.
(** RFC 7541 C.4.1: a request with Huffman coding. *)
Example C62_nonvacuous : decode_headers hi_new
    [0x82; 0x86; 0x84; 0x41; 0x8c; 0xf1; 0xe3; 0xc2; 0xe5; 0xf2; 0x3a; 0x6b; 0xa0; 0xab; 0x90; 0xf4; 0xff] =
  (mkIdx [(str ":authority", str "www.example.com")] 57 4096,
   Ok [(str ":method", str "GET"); (str ":scheme", str "http"); (str ":path", str "/"); (str ":authority", str "www.example.com")]).
Proof. vm_compute. reflexivity. Qed.

(** C63. What the encoder writes is a header block of RFC 7541 for the headers given (names in lower case),
    so any conforming decoder with the same table reads them.  Partial: names without clashes, and not
    "accept-", which the library takes for entry 15. *)
Theorem C63_writes_rfc_blocks_partial : forall m l fs, exists t, t_run m l = Ok t /\
  (Forall sendable fs ->
   (forall f, In f (hi_to_vec t) -> Forall (fun b => b < 128) (fst f)) ->
   (forall f g, In f fs -> In g (hi_to_vec t ++ fs) -> clash_free (fst g) (fst f)) ->
   (forall f, In f fs -> map lower_ascii (fst f) <> str "accept-") ->
   exists t' b, encode_headers t fs = Ok (t', b) /\
     rfc_block (hi_get_max t) (map lower_field (hi_to_vec t)) b (map lower_field fs) (map lower_field (hi_to_vec t'))).
Proof. exact encode_rfc. Qed.
Print Assumptions C63_writes_rfc_blocks_partial.
Theorem C63_accept_refuted : exists f b, sendable f /\ encode_headers hi_new [f] = Ok (hi_new, b) /\
  rfc_block 4096 [] b [(str "accept-charset", [])] [] /\ lower_field f <> (str "accept-charset", []).
Proof.
  exists (str "accept-", []), [143]. split.
  { assert (A : Forall sendable [(str "accept-", [])]) by (apply sendableb_ok; vm_compute; reflexivity). inversion A; assumption. }
  split; [vm_compute; reflexivity|]. split; [|vm_compute; discriminate].
  apply (b_cons _ _ _ _ [] [128 + 15] _ [] [] []); [|constructor].
  apply (f_indexed _ _ _ _ _ 15); [exact I|apply int_short; reflexivity|reflexivity].
Qed.
Print Assumptions C63_accept_refuted.
Example C63_nonvacuous : encode_headers hi_new [(str ":method", str "GET"); (str "Custom-Key", str "custom-value")] =
  Ok (mkIdx [(str "Custom-Key", str "custom-value")] 54 4096,
      [0x82; 0x40; 0x88; 0x25; 0xa8; 0x49; 0xe9; 0x5b; 0xa9; 0x7d; 0x7f; 0x89; 0x25; 0xa8; 0x49; 0xe9; 0x5b; 0xb8; 0xe8; 0xb4; 0xbf]).
Proof. vm_compute. reflexivity. Qed.
