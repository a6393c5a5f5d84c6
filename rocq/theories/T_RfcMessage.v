(** C113: where the requests of RFC 9112 end. *)
From Coq Require Import Ascii String NArith ZArith Lia Bool List ZifyBool ZifyNat ZifyN.
From Verif Require Import Base P_Base M_Std M_Helper M_Header M_Url M_Http1 S_Map S_Hex S_Http1 S_Http1Api P_Map P_Msg S_Url S_UrlAll S_Build S_Stream S_Rfc9112 P_Rfc9112 T_Rfc9112 S_RfcBody P_RfcBody T_RfcBody
  S_RfcMessage P_RfcMessage.
Import ListNotations.
Local Open Scope N_scope.

(** Behind a conforming head, the body is read to the content that it carries and to exactly what follows it if and only if the coding is spelled
    "chunked" and the body has no extensions and no trailer fields, or the length is below 2^63. *)
Theorem C113_body : forall ls x rest, Forall line_ok ls -> unconfused_names (map line_field ls) -> rfc_framed (map line_field ls) x ->
  (read_body (map line_field ls) (body_wire x ++ rest) = Ok (body_meant x, rest) <-> body_readable (map line_field ls) x).
Proof. exact body_exact. Qed.
Print Assumptions C113_body.
(** The same for whole requests, with the conditions of C108 on the head. *)
Theorem C113_message : forall m rest, bytes_ok (message_text m ++ rest) -> message_ok m ->
  ((exists q, read_message parse_request q_header (message_text m ++ rest) = Ok (q, body_meant (rm_body m), rest) /\ received_as m q) <-> message_readable m).
Proof. exact message_exact. Qed.
Print Assumptions C113_message.
(** Any number of such requests on a connection are told apart. *)
Theorem C113_messages : forall ms rest, bytes_ok (concat (map message_text ms) ++ rest) -> Forall message_ok ms -> Forall message_readable ms ->
  exists got, read_messages parse_request q_header (length ms) (concat (map message_text ms) ++ rest) = Ok (got, rest) /\
    Forall2 (fun m g => received_as m (fst g) /\ snd g = body_meant (rm_body m)) ms got.
Proof. exact messages_read. Qed.
Print Assumptions C113_messages.

(** A conforming request whose coding is written with a capital letter: the Content-Length, which the RFC overrides, is used
    instead, and the rest of the body is taken for a request that nobody sent. *)
Definition te_line (v : string) : line := mkLine (str "Transfer-Encoding") [SP] (str v) [].
Definition cl_line (v : string) : line := mkLine (str "Content-Length") [SP] (str v) [].
Definition inner : bytes := str "GET /admin HTTP/1.1" ++ CRLF ++ CRLF.
Definition smuggling : rfc_message :=
  mkRfcMessage (str "POST") (str "/") (str "HTTP/1.1") [host_line; te_line "Chunked"; cl_line "4"]
    (BChunked (mkChunked [mkChunk (str "17") [] inner] 0 [] [])).
Ltac line_list := split; [split; [discriminate|all_list]|]; split; [all_list|]; split; [|split; [constructor|discriminate]].
Lemma te_line_ok : line_ok (te_line "Chunked").
Proof.
  line_list. right. right. exists 67, (str "hunke"), 100. split; [reflexivity|].
  split; [left; unfold vchar; lia|]. split; [left; unfold vchar; lia|]. cbn. repeat (apply Forall_cons; [left; left; unfold vchar; lia|]). apply Forall_nil.
Qed.
Lemma small_line_ok : line_ok (te_line "chunked").
Proof.
  line_list. right. right. exists 99, (str "hunke"), 100. split; [reflexivity|].
  split; [left; unfold vchar; lia|]. split; [left; unfold vchar; lia|]. cbn. repeat (apply Forall_cons; [left; left; unfold vchar; lia|]). apply Forall_nil.
Qed.
Lemma cl_line_ok : line_ok (cl_line "4").
Proof. line_list. right. left. exists 52. split; [reflexivity|left; unfold vchar; lia]. Qed.
Lemma hex17 : hex_num (str "17") 23.
Proof. change (str "17") with (([] ++ [49]) ++ [55]). change 23 with (16 * (16 * 0 + 1) + 7). repeat (apply hn_snoc; [|left; reflexivity]). constructor. Qed.
Lemma smuggling_ok : message_ok smuggling.
Proof.
  split; [|split].
  - split; [split; [discriminate|all_list]|]. split; [apply slash_ok|]. split; [apply ones_ok|].
    apply Forall_cons; [exact host_line_ok|apply Forall_cons; [exact te_line_ok|apply Forall_cons; [exact cl_line_ok|apply Forall_nil]]].
  - apply (rf_chunked _ (str "Chunked")); [vm_compute; reflexivity|vm_compute; reflexivity| |].
    + split; [|split; [left; reflexivity|apply Forall_nil]]. apply Forall_cons; [|apply Forall_nil].
      split; [discriminate|]. split; [exact hex17|]. split; [left; reflexivity|discriminate].
    + apply Forall_cons; [vm_compute; reflexivity|apply Forall_nil].
  - repeat (apply Forall_cons; [split; apply clash_freeb_ok; vm_compute; reflexivity|]). apply Forall_nil.
Qed.
Theorem C113_smuggling_refuted : exists m rest q1 q2 r,
  message_ok m /\ head_readable m /\ plain (mkChunked [mkChunk (str "17") [] inner] 0 [] []) /\
  read_messages parse_request q_header 2 (message_text m ++ rest) = Ok ([(q1, str "17" ++ CRLF); (q2, [])], r) /\
  received_as m q1 /\ q_method q2 = MGet /\ u_path (q_url q2) = str "/admin".
Proof.
  exists smuggling, []. eexists. eexists. eexists. split; [exact smuggling_ok|]. split; [|split].
  - split; [|split; [right; reflexivity|split]].
    + exists MPost, "POST"%string. eexists. split; [vm_compute; tauto|]. split; [reflexivity|]. apply wire_url_spec. vm_compute. reflexivity.
    + repeat (apply Forall_cons; [split; [repeat constructor|reflexivity]|]). apply Forall_nil.
    + cbn. repeat split; repeat constructor.
  - repeat constructor.
  - split; [vm_compute; reflexivity|]. split; [repeat split; vm_compute; reflexivity|]. split; vm_compute; reflexivity.
Qed.
Print Assumptions C113_smuggling_refuted.
(** Requests that have to be refused are read: with a final coding that is not chunked, and with lengths that are not numerals. *)
Definition read_with (ls : list line) (body : bytes) : res (request * bytes * bytes) :=
  read_message parse_request q_header (rfc_request_text (str "POST") (str "/") (str "HTTP/1.1") (host_line :: ls) ++ body).
Definition outcome {A} (x : res (A * bytes * bytes)) : res (bytes * bytes) := ' (_, b, r) <- x ;; Ok (b, r).
Theorem C113_invalid_refuted :
  ~ finally_chunked (str "chunked, gzip") /\ outcome (read_with [te_line "chunked, gzip"] (str "1" ++ CRLF ++ str "x" ++ CRLF ++ str "0" ++ CRLF ++ CRLF)) = Ok (str "x", []) /\
  ~ finally_chunked (str "identity") /\ outcome (read_with [te_line "identity"; cl_line "4"] (str "abcd")) = Ok (str "abcd", []) /\
  (forall n, ~ decimal (str "4, 4") n) /\ outcome (read_with [cl_line "4, 4"] (str "abcd")) = Ok ([], str "abcd") /\
  (forall n, ~ decimal (str "+4") n) /\ outcome (read_with [cl_line "+4"] (str "abcd")) = Ok ([], str "abcd").
Proof.
  split; [vm_compute; discriminate|]. split; [vm_compute; reflexivity|]. split; [vm_compute; discriminate|]. split; [vm_compute; reflexivity|].
  split; [|split; [vm_compute; reflexivity|]]; [|split; [|vm_compute; reflexivity]].
  - intros n (_ & H & _). inversion_clear H as [|? ? _ H1]. inversion_clear H1 as [|? ? H2 _]. unfold digit in H2. revert H2. cbn. lia.
  - intros n (_ & H & _). inversion_clear H as [|? ? H2 _]. unfold digit in H2. revert H2. cbn. lia.
Qed.
Print Assumptions C113_invalid_refuted.

(** Three requests that are read as meant: a chunked body, a body with a length, and none. *)
Definition three_messages : list rfc_message :=
  [mkRfcMessage (str "POST") (str "/") (str "HTTP/1.1") [host_line; te_line "chunked"] (BChunked (mkChunked [mkChunk (str "17") [] inner] 0 [] []));
   mkRfcMessage (str "POST") (str "/") (str "HTTP/1.1") [host_line; cl_line "4"] (BSized (str "abcd"));
   mkRfcMessage (str "GET") (str "/") (str "HTTP/1.1") [host_line] BNone].
Example C113_example : Forall message_ok three_messages /\ Forall message_readable three_messages /\
  bytes_ok (concat (map message_text three_messages)).
Proof.
  assert (U : forall ls, forallb (fun nv => clash_freeb (fst nv) (str "transfer-encoding") && clash_freeb (fst nv) (str "content-length")) ls = true -> unconfused_names ls).
  { intros ls H. unfold unconfused_names. rewrite forallb_forall in H. apply Forall_forall. intros nv I. apply H in I. apply andb_true_iff in I as [I1 I2].
    split; apply clash_freeb_ok; assumption. }
  assert (W : forall k s ls, In (k, s) method_names -> (exists u, wire_url k (str "/") (map line_field ls) u) ->
    exists k' s' u, In (k', s') method_names /\ str s = str s' /\ wire_url k' (str "/") (map line_field ls) u).
  { intros k s ls I [u Hu]. exists k, s, u. auto. }
  split; [|split].
  - apply Forall_cons; [|apply Forall_cons; [|apply Forall_cons; [|apply Forall_nil]]].
    + split; [|split; [|apply U; vm_compute; reflexivity]].
      * split; [split; [discriminate|all_list]|]. split; [apply slash_ok|]. split; [apply ones_ok|].
        apply Forall_cons; [exact host_line_ok|apply Forall_cons; [exact small_line_ok|apply Forall_nil]].
      * apply (rf_chunked _ (str "chunked")); [vm_compute; reflexivity|vm_compute; reflexivity| |].
        -- split; [|split; [left; reflexivity|apply Forall_nil]]. apply Forall_cons; [|apply Forall_nil].
           split; [discriminate|]. split; [exact hex17|]. split; [left; reflexivity|discriminate].
        -- apply Forall_cons; [vm_compute; reflexivity|apply Forall_nil].
    + split; [|split; [|apply U; vm_compute; reflexivity]].
      * split; [split; [discriminate|all_list]|]. split; [apply slash_ok|]. split; [apply ones_ok|].
        apply Forall_cons; [exact host_line_ok|apply Forall_cons; [exact cl_line_ok|apply Forall_nil]].
      * apply (rf_length _ (str "4")); [vm_compute; reflexivity|vm_compute; reflexivity|].
        split; [discriminate|]. split; [|reflexivity]. apply Forall_cons; [unfold digit; cbn; lia|apply Forall_nil].
    + split; [|split; [apply rf_none; vm_compute; reflexivity|apply U; vm_compute; reflexivity]].
      split; [split; [discriminate|all_list]|]. split; [apply slash_ok|]. split; [apply ones_ok|]. apply Forall_cons; [exact host_line_ok|apply Forall_nil].
  - assert (X : forall k s ls b, In (k, s) method_names -> (exists u, wire_url k (str "/") (map line_field ls) u) ->
      Forall plain_line ls -> distinct_names (map line_field ls) -> body_readable (map line_field ls) b ->
      message_readable (mkRfcMessage (str s) (str "/") (str "HTTP/1.1") ls b)).
    { intros k s ls b I Hu P D B. split; [|exact B]. split; [exact (W k s ls I Hu)|]. split; [right; reflexivity|]. split; assumption. }
    apply Forall_cons; [|apply Forall_cons; [|apply Forall_cons; [|apply Forall_nil]]].
    + apply (X MPost "POST"%string); [vm_compute; tauto|eexists; apply wire_url_spec; vm_compute; reflexivity| | |].
      * repeat (apply Forall_cons; [split; [repeat constructor|reflexivity]|]). apply Forall_nil.
      * cbn. repeat split; repeat constructor.
      * split; [exists (str "chunked"); split; [vm_compute; reflexivity|exists [], []; reflexivity]|repeat constructor].
    + apply (X MPost "POST"%string); [vm_compute; tauto|eexists; apply wire_url_spec; vm_compute; reflexivity| | |].
      * repeat (apply Forall_cons; [split; [repeat constructor|reflexivity]|]). apply Forall_nil.
      * cbn. repeat split; repeat constructor.
      * vm_compute. reflexivity.
    + apply (X MGet "GET"%string); [vm_compute; tauto|eexists; apply wire_url_spec; vm_compute; reflexivity| | |exact I].
      * repeat (apply Forall_cons; [split; [repeat constructor|reflexivity]|]). apply Forall_nil.
      * cbn. repeat split; repeat constructor.
  - apply bytes_okb_ok. vm_compute. reflexivity.
Qed.
