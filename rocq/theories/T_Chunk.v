(** Properties C12, C13 and C58: chunked bodies and hexadecimal text. *)
From Coq Require Import Ascii String NArith ZArith Bool List.
From Verif Require Import Base M_Std M_Helper S_Http1 S_Http1Api S_Hex P_Base P_Helper P_Http1 P_Msg P_Chunk.
Import ListNotations.
Local Open Scope N_scope.

(** ** C12: any blocks, written one after the other and closed by the empty
    chunk, are read back; the bytes that follow are left alone.  A block is
    non-empty (the empty one is the terminator) and, as any Vec, shorter than
    2^64 - 2 bytes. *)
Theorem C12_chunks_roundtrip : forall blocks rest fuel, (length blocks < fuel)%nat ->
  Forall (fun d => d <> [] /\ blen d + 2 < 2 ^ 64) blocks ->
  read_chunks fuel (concat (map encode_chunk_data blocks) ++ encode_chunk_data [] ++ rest) = Ok (blocks, rest).
Proof. intros blocks rest fuel Hf H. exact (chunks_roundtrip blocks rest fuel Hf H). Qed.
Print Assumptions C12_chunks_roundtrip.

(** The wire form: the length in hexadecimal, CRLF, the block, CRLF. *)
Theorem C12_chunk_wire : forall d, exists ds, ds <> [] /\ hex_num ds (blen d) /\
  encode_chunk_data d = ds ++ [13; 10] ++ d ++ [13; 10].
Proof. exact chunk_wire. Qed.
Print Assumptions C12_chunk_wire.

Example C12_two_blocks : encode_chunk_data (str "hello, chunked!!") = str "10" ++ [13; 10] ++ str "hello, chunked!!" ++ [13; 10] /\
  read_chunks 3 (concat (map encode_chunk_data [str "hello, chunked!!"; [13; 10; 0; 255]]) ++ encode_chunk_data [] ++ str "GET")
  = Ok ([str "hello, chunked!!"; [13; 10; 0; 255]], str "GET").
Proof. split; vm_compute; reflexivity. Qed.

(** ** C13: exactly the buffers that start with a size line (at least one digit,
    then an end of line) and hold that many bytes and two more. *)
Theorem C13_chunk_exact : forall l off n, parse_chunk_data l = Ok (off, n) <->
  exists line rest, l = line ++ rest /\ size_line line n /\ off = blen line /\ n + 2 < 2 ^ 64 /\ n + 2 <= blen rest.
Proof. exact chunk_exact. Qed.
Print Assumptions C13_chunk_exact.

(** More bytes never change a verdict other than Partial. *)
Theorem C13_chunk_stable : forall l x,
  parse_chunk_data l <> Err (EHttp Partial) -> parse_chunk_data (l ++ x) = parse_chunk_data l.
Proof. exact chunk_stable. Qed.
Print Assumptions C13_chunk_stable.

(** Every strict prefix of an encoded chunk is Partial. *)
Theorem C13_encoded_prefix : forall d p s, blen d + 2 < 2 ^ 64 -> encode_chunk_data d = p ++ s -> s <> [] ->
  parse_chunk_data p = Err (EHttp Partial).
Proof. exact chunk_encoded_prefix. Qed.
Print Assumptions C13_encoded_prefix.
(** The same for any chunk the decoder accepts. *)
Theorem C13_accepted_prefix : forall p s off n, parse_chunk_data (p ++ s) = Ok (off, n) -> blen p < off + n + 2 ->
  parse_chunk_data p = Err (EHttp Partial).
Proof. intros p s off n H L. exact (chunk_prefix (p ++ s) off n p s H eq_refl L). Qed.
Print Assumptions C13_accepted_prefix.

(** Never panicking holds only of sizes that fit: a panic needs a numeral of at
    least 16 digits denoting at least 2^64 - 2. *)
Theorem C13_total_partial : forall l,
  (forall ds n b r, l = ds ++ b :: r -> hex_num ds n -> ~ hex_byte b -> n + 2 < 2 ^ 64) ->
  parse_chunk_data l <> Panic /\ parse_chunk_data l <> Diverge.
Proof. exact chunk_total. Qed.
Print Assumptions C13_total_partial.
Theorem C13_short_numerals_partial : forall l,
  (forall ds r, l = ds ++ r -> Forall hex_byte ds -> (length ds < 16)%nat) ->
  parse_chunk_data l <> Panic /\ parse_chunk_data l <> Diverge.
Proof. exact chunk_total_short. Qed.
Print Assumptions C13_short_numerals_partial.
(** And every larger size, sent by a peer, stops the process. *)
Theorem C13_large_sizes_panic : forall ds n b r, ds <> [] -> hex_num ds n -> ~ hex_byte b -> 2 ^ 64 <= n ->
  parse_chunk_data (ds ++ b :: r) = Panic.
Proof. exact chunk_panics. Qed.
Print Assumptions C13_large_sizes_panic.
Theorem C13_total_refuted : exists l, bytes_ok l /\ parse_chunk_data l = Panic /\
  exists ds, hex_num ds (2 ^ 64 - 1) /\ l = ds ++ [13; 10].
Proof.
  exists (str "ffffffffffffffff" ++ [13; 10]). split; [apply bytes_okb_ok; vm_compute; reflexivity|].
  split; [vm_compute; reflexivity|]. exists (str "ffffffffffffffff"). split; [|reflexivity].
  apply hex_num_spec. split; vm_compute; reflexivity.
Qed.
Print Assumptions C13_total_refuted.
(** The two bytes after the data are counted but not looked at. *)
Theorem C13_trailer_refuted : exists l off n, parse_chunk_data l = Ok (off, n) /\
  firstn 2 (skipn (N.to_nat (off + n)) l) <> [13; 10].
Proof.
  exists (str "3" ++ [13; 10] ++ str "abcXY"), 3, 3. split; [vm_compute; reflexivity|]. vm_compute. discriminate.
Qed.
Print Assumptions C13_trailer_refuted.

Example C13_case : parse_chunk_data (str "1A" ++ [13; 10] ++ repeat 7 28) = Ok (4, 26) /\
  parse_chunk_data (str "1A" ++ [13; 10] ++ repeat 7 27) = partial /\
  parse_chunk_data (str "xyz") = Err (EHttp Token).
Proof. repeat split; vm_compute; reflexivity. Qed.

(** ** C58: hexadecimal text. *)
Theorem C58_pairs_roundtrip : forall bs, bytes_ok bs -> hex_to_vec (concat (map hex_pair bs)) = Ok bs.
Proof. exact hex_pairs_roundtrip. Qed.
Print Assumptions C58_pairs_roundtrip.
(** What is accepted and with which result: pairs of digits, spaces anywhere, a
    last single digit dropped. *)
Theorem C58_hex_exact : forall l out, hex_to_vec l = Ok out <-> hex_text l out.
Proof. exact hex_to_vec_spec. Qed.
Print Assumptions C58_hex_exact.
(** Anything else panics, and nothing but that. *)
Theorem C58_hex_panics : forall l, hex_to_vec l = Panic <-> exists b, In b l /\ b <> 32 /\ ~ hex_byte b.
Proof. exact hex_to_vec_panic. Qed.
Print Assumptions C58_hex_panics.

Example C58_case : hex_to_vec (str "de ad b eef ") = Ok [222; 173; 190; 239] /\
  hex_to_vec (concat (map hex_pair [0; 15; 16; 255])) = Ok [0; 15; 16; 255] /\ hex_to_vec (str "0x") = Panic.
Proof. repeat split; vm_compute; reflexivity. Qed.
