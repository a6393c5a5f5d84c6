(** C112: the chunked bodies of RFC 9112. *)
From Coq Require Import Ascii String NArith ZArith Lia Bool List ZifyBool ZifyNat ZifyN.
From Verif Require Import Base P_Base M_Std M_Helper M_Header M_Url M_Http1 S_Http1 S_Http1Api S_Hex S_Url S_Rfc9112 S_RfcBody P_RfcBody.
Import ListNotations.
Local Open Scope N_scope.

(** A body of the RFC is read to its blocks and to what follows it exactly if it has neither extensions nor trailer fields. *)
Theorem C112_read : forall b rest fuel, chunked_ok b -> counted b -> (length (chunked_data b) < fuel)%nat ->
  (read_chunks fuel (chunked_text b ++ rest) = Ok (chunked_data b, rest) <-> plain b).
Proof. intros b rest fuel. exact (body_read b rest fuel). Qed.
Print Assumptions C112_read.
(** With an extension anywhere it is never read, however much of it there is. *)
Theorem C112_extensions : forall b rest fuel ds r, chunked_ok b -> counted b ->
  read_chunks fuel (chunked_text b ++ rest) = Ok (ds, r) -> Forall (fun c => ck_ext c = []) (cd_chunks b) /\ cd_ext b = [].
Proof. exact body_refused. Qed.
Print Assumptions C112_extensions.
(** With trailer fields the blocks are read, but the trailer section is left in front of what follows, without its first two octets. *)
Theorem C112_trailer : forall b rest fuel, chunked_ok b -> counted b ->
  Forall (fun c => ck_ext c = []) (cd_chunks b) -> cd_ext b = [] -> (length (chunked_data b) < fuel)%nat ->
  read_chunks fuel (chunked_text b ++ rest) = Ok (chunked_data b, skipn 2 (lines_text (cd_trailer b)) ++ rest).
Proof. exact trailer_left. Qed.
Print Assumptions C112_trailer.
(** What is accepted is exactly this: bodies without extensions whose size lines may end in three ways and whose blocks are followed by any two octets. *)
Theorem C112_accepted : forall fuel l ds rest,
  read_chunks fuel l = Ok (ds, rest) <-> lax_body l ds rest /\ (length ds < fuel)%nat.
Proof. exact body_accepted. Qed.
Print Assumptions C112_accepted.
(** What is written for any blocks is a body of the RFC, without extensions or trailer fields, that carries them. *)
Theorem C112_sent : forall blocks, Forall (fun d => d <> []) blocks ->
  exists b, chunked_ok b /\ plain b /\ chunked_data b = blocks /\
    concat (map encode_chunk_data blocks) ++ encode_chunk_data [] = chunked_text b.
Proof. exact body_sent. Qed.
Print Assumptions C112_sent.

(** A body with an extension, a trailer field and zeros in its sizes. *)
Definition full_body : chunked :=
  mkChunked [mkChunk (str "003") [] (str "abc"); mkChunk (str "A") (str ";q=1") (str "0123456789")] 2 [] [mkLine (str "Digest") [SP] (str "x") []].
Definition plain_body : chunked :=
  mkChunked [mkChunk (str "003") [] (str "abc"); mkChunk (str "A") [] (str "0123456789")] 2 [] [].
Lemma hex3 : hex_num (str "003") 3.
Proof. change (str "003") with ((([] ++ [48]) ++ [48]) ++ [51]). change 3 with (16 * (16 * (16 * 0 + 0) + 0) + 3).
  repeat (apply hn_snoc; [|left; reflexivity]). constructor. Qed.
Lemma hexA : hex_num (str "A") 10.
Proof. change (str "A") with ([] ++ [65]). change 10 with (16 * 0 + 10). apply hn_snoc; [constructor|right; reflexivity]. Qed.
Example C112_ok : chunked_ok full_body /\ counted full_body /\ ~ plain full_body /\ chunked_ok plain_body /\ counted plain_body /\ plain_body <> full_body /\
  plain plain_body /\ read_chunks 4 (chunked_text plain_body ++ str "GET") = Ok ([str "abc"; str "0123456789"], str "GET").
Proof.
  assert (L : line_ok (mkLine (str "Digest") [SP] (str "x") [])).
  { unfold line_ok. cbn [ln_name ln_lead ln_value ln_trail]. repeat match goal with |- _ /\ _ => split end.
    - split; [discriminate|]. change (str "Digest") with [68; 105; 103; 101; 115; 116].
      repeat (apply Forall_cons; [left; unfold alpha, upper, lower; lia|]). apply Forall_nil.
    - constructor; [left; reflexivity|constructor].
    - right. left. exists 120. split; [reflexivity|]. left. unfold vchar. lia.
    - constructor.
    - discriminate. }
  assert (X : chunk_ext (str ";q=1")).
  { right. exists (str "q=1"). split; [reflexivity|]. change (str "q=1") with [113; 61; 49].
    repeat (apply Forall_cons; [left; left; unfold vchar; lia|]). apply Forall_nil. }
  unfold chunked_ok, counted. cbn [cd_chunks cd_ext cd_trailer full_body plain_body].
  repeat match goal with |- _ /\ _ => split end.
  - apply Forall_cons; [|apply Forall_cons; [|apply Forall_nil]]; (split; [discriminate|split; [|split; [|discriminate]]]).
    + exact hex3. + left; reflexivity. + exact hexA. + exact X.
  - left; reflexivity.
  - apply Forall_cons; [exact L|apply Forall_nil].
  - apply Forall_cons; [vm_compute; reflexivity|apply Forall_cons; [vm_compute; reflexivity|apply Forall_nil]].
  - intros (_ & _ & H). discriminate H.
  - apply Forall_cons; [|apply Forall_cons; [|apply Forall_nil]]; (split; [discriminate|split; [|split; [left; reflexivity|discriminate]]]).
    + exact hex3. + exact hexA.
  - left; reflexivity.
  - apply Forall_nil.
  - apply Forall_cons; [vm_compute; reflexivity|apply Forall_cons; [vm_compute; reflexivity|apply Forall_nil]].
  - discriminate.
  - repeat split. repeat constructor.
  - vm_compute. reflexivity.
Qed.
(** Not every body of the RFC is read to its blocks. *)
Theorem C112_read_refuted : ~ (forall b rest fuel, chunked_ok b -> counted b -> (length (chunked_data b) < fuel)%nat ->
  read_chunks fuel (chunked_text b ++ rest) = Ok (chunked_data b, rest)).
Proof.
  intros H. destruct C112_ok as (H1 & H2 & H3 & _). apply H3. apply (body_read full_body [] 3 H1 H2); [vm_compute; lia|].
  apply H; [exact H1|exact H2|vm_compute; lia].
Qed.
Print Assumptions C112_read_refuted.
(** A blank before the extension, which receivers have to take, ends the size line, and the extension becomes data. *)
Theorem C112_blank_refuted :
  read_chunks 3 (str "3 ;q=1" ++ CRLF ++ str "abc" ++ CRLF ++ str "0" ++ CRLF ++ CRLF) = Err (EHttp Token) /\
  parse_chunk_data (str "3 ;q=1" ++ CRLF ++ str "abc" ++ CRLF ++ str "0" ++ CRLF ++ CRLF) = Ok (2, 3).
Proof. split; vm_compute; reflexivity. Qed.
Print Assumptions C112_blank_refuted.
(** And bodies are accepted that the RFC does not have: size lines that end with a line feed, blocks followed by other octets. *)
Theorem C112_strict_refuted :
  read_chunks 3 (str "3" ++ [LF] ++ str "abcXY0" ++ [LF] ++ str "PQrest") = Ok ([str "abc"], str "rest") /\
  ~ (exists b rest, chunked_ok b /\ chunked_text b ++ rest = str "3" ++ [LF] ++ str "abcXY0" ++ [LF] ++ str "PQrest").
Proof. exact lax_example. Qed.
Print Assumptions C112_strict_refuted.
