(** C25-C27: the Huffman code of HPACK. *)
From Coq Require Import Ascii String NArith Bool List.
From Verif Require Import Base P_Base M_Huffman S_Huffman P_Huffman.
Import ListNotations.
Local Open Scope N_scope.

(** C25. Encoding succeeds, produces the code of RFC 7541, and decoding gives the text back. *)
Theorem C25_encode_is_the_code : forall s, bytes_ok s ->
  exists b, huff_encode s = Ok b /\ bytes_ok b /\ huff_coded b s.
Proof. exact huff_encode_coded. Qed.
Print Assumptions C25_encode_is_the_code.

Theorem C25_round_trip : forall s, bytes_ok s ->
  exists b, huff_encode s = Ok b /\ bytes_ok b /\ huff_decode b = Ok s.
Proof. exact huff_round_trip. Qed.
Print Assumptions C25_round_trip.

Theorem C25_lower_round_trip : forall s, bytes_ok s ->
  exists b, huff_encode_lower s = Ok b /\ huff_decode b = Ok (map lower_ascii s).
Proof.
  intros s H. destruct (huff_round_trip (map lower_byte s) (lower_ok s H)) as (b & E & _ & D).
  exists b. split; [exact E|exact D].
Qed.
Print Assumptions C25_lower_round_trip.

(** RFC 7541 C.4.1, and all 256 octets in one string. *)
Example C25_ex1 : huff_encode (str "www.example.com") =
  Ok [0xf1; 0xe3; 0xc2; 0xe5; 0xf2; 0x3a; 0x6b; 0xa0; 0xab; 0x90; 0xf4; 0xff].
Proof. vm_compute. reflexivity. Qed.
Example C25_ex2 : match huff_encode all_bytes with Ok b => blen b =? 583 | _ => false end = true.
Proof. vm_compute. reflexivity. Qed.
Example C25_ex3 : exists b, huff_encode_lower (str "Content-TYPE") = Ok b /\ huff_decode b = Ok (str "content-type").
Proof. eexists. split. - vm_compute. reflexivity. - vm_compute. reflexivity. Qed.

(** C26. The table is the canonical code of Appendix B: entry [s] holds the word of symbol [s]. *)
Theorem C26_table_is_appendix_B :
  length HUFFMAN_CODE_ARRAY = 257%nat /\
  forall s, s <= 256 -> exists c n, nth_error HUFFMAN_CODE_ARRAY (N.to_nat s) = Some (c, n) /\
    c < 2 ^ n /\ huff_word s = num_bits (N.to_nat n) c /\ length (huff_word s) = N.to_nat n.
Proof. exact table_is_code. Qed.
Print Assumptions C26_table_is_appendix_B.

Theorem C26_prefix_free : forall s t, s <= 256 -> t <= 256 ->
  bits_prefix (huff_word s) (huff_word t) -> s = t.
Proof. exact huff_prefix_free. Qed.
Print Assumptions C26_prefix_free.

(** The Kraft sum over the words, scaled by 2^30, is exactly 1. *)
Theorem C26_complete :
  fold_right N.add 0 (map (fun s => 2 ^ (30 - N.of_nat (length (huff_word s)))) symbols) = 2 ^ 30.
Proof. vm_compute. reflexivity. Qed.
Print Assumptions C26_complete.

Theorem C26_decode_total : forall b,
  (exists s, huff_decode b = Ok s /\ bytes_ok s) \/ huff_decode b = Err (EHttp2 (HuffmanErr PaddingTooLarge)).
Proof. exact huff_decode_total. Qed.
Print Assumptions C26_decode_total.

Example C26_ex1 : huff_word 38 = [true; true; true; true; true; false; false; false].
Proof. vm_compute. reflexivity. Qed.
Example C26_ex2 : huff_decode [0x1f; 0xf0] = Err (EHttp2 (HuffmanErr PaddingTooLarge)).
Proof. vm_compute. reflexivity. Qed.
Example C26_ex3 : length symbols = 257%nat /\ nth 256 symbols 0 = 256.
Proof. vm_compute. split; reflexivity. Qed.

(** C27. The accepted strings are exactly the codes of sequences of symbols 0..256 with at most seven
    one bits of padding; EOS (256) is accepted and read as 0. *)
Theorem C27_decode_exact : forall b s,
  huff_decode b = Ok s <->
  exists syms, Forall (fun x => x <= 256) syms /\ huff_coded b syms /\ s = map (fun x => x mod 256) syms.
Proof. exact huff_decode_exact. Qed.
Print Assumptions C27_decode_exact.

(** Partial: only for texts without the octet 0 (that is what EOS is read as). *)
Theorem C27_canonical_partial : forall b s,
  bytes_ok b -> huff_decode b = Ok s -> ~ In 0 s -> huff_encode s = Ok b.
Proof. exact huff_canonical. Qed.
Print Assumptions C27_canonical_partial.

(** Two different accepted strings never decode to one text that avoids the octet 0. *)
Theorem C27_injective_partial : forall a b s,
  bytes_ok a -> bytes_ok b -> ~ In 0 s -> huff_decode a = Ok s -> huff_decode b = Ok s -> a = b.
Proof.
  intros a b s Ha Hb Z Da Db. apply huff_canonical in Da; [|exact Ha|exact Z].
  apply huff_canonical in Db; [|exact Hb|exact Z]. congruence.
Qed.
Print Assumptions C27_injective_partial.

(** Refuted in general: the EOS symbol, which RFC 7541 5.2 requires to reject, is accepted. *)
Theorem C27_canonical_refuted : exists b s, bytes_ok b /\ huff_decode b = Ok s /\
  huff_encode s <> Ok b /\ huff_coded b [256].
Proof.
  exists [255; 255; 255; 255], [0]. split; [|split; [|split]].
  - apply Forall_forall. intros x Hx. cbn in Hx. unfold byte_ok. destruct Hx as [<-|[<-|[<-|[<-|[]]]]]; reflexivity.
  - vm_compute. reflexivity.
  - vm_compute. discriminate.
  - exists 2%nat. split; [repeat constructor|]. vm_compute. reflexivity.
Qed.
Print Assumptions C27_canonical_refuted.

Example C27_ex1 : huff_decode [0xa8; 0xeb; 0x10; 0x64; 0x9c; 0xbf] = Ok (str "no-cache").
Proof. vm_compute. reflexivity. Qed.
Example C27_ex2 : ~ In 0 (str "no-cache").
Proof. vm_compute. intuition discriminate. Qed.
