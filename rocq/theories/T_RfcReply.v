(** C114: where the responses of RFC 9112 end. *)
From Coq Require Import Ascii String NArith ZArith Lia Bool List ZifyBool ZifyNat ZifyN.
From Verif Require Import Base P_Base M_Std M_Helper M_Header M_Url M_Http1 S_Map S_Hex S_Http1 S_Http1Api P_Map P_Msg S_Url S_UrlAll S_Build S_Stream S_Rfc9112 P_Rfc9112 T_Rfc9112 S_RfcBody P_RfcBody T_RfcBody
  S_RfcMessage P_RfcMessage T_RfcMessage S_RfcReply P_RfcReply.
Import ListNotations.
Local Open Scope N_scope.

(** The two answers of a method about bodies. *)
Theorem C114_nobody : forall k, (res_nobody k = true <-> k = MHead \/ k = MOptions \/ k = MConnect) /\
  (is_nobody k = true <-> k = MGet \/ k = MHead \/ k = MOptions \/ k = MConnect).
Proof. exact nobody_exact. Qed.
Print Assumptions C114_nobody.
(** Behind a conforming head, the body is read to the content that it carries and to exactly what follows it if and only if
    [reply_readable] holds. *)
Theorem C114_body : forall k code ls x rest, Forall line_ok ls -> unconfused_names (map line_field ls) -> sane_length (map line_field ls) ->
  reply_framed k code (map line_field ls) x -> follows x rest ->
  (reply_body_of k (map line_field ls) (reply_wire x ++ rest) = Ok (reply_meant x, rest) <-> reply_readable k (map line_field ls) x).
Proof. exact reply_exact. Qed.
Print Assumptions C114_body.
(** The same for whole responses, with the conditions of C108 on the head. *)
Theorem C114_reply : forall m rest, bytes_ok (reply_text m ++ rest) -> reply_ok m -> follows (rr_body m) rest ->
  ((exists p, read_reply (rr_to m) (reply_text m ++ rest) = Ok (p, reply_meant (rr_body m), rest) /\ answered_as m p) <-> answer_readable m).
Proof. exact answer_exact. Qed.
Print Assumptions C114_reply.
(** Any number of such responses on a connection are told apart. *)
Theorem C114_replies : forall ms rest, bytes_ok (concat (map reply_text ms) ++ rest) -> Forall reply_ok ms -> Forall answer_readable ms -> in_order ms rest ->
  exists got, read_replies (map rr_to ms) (concat (map reply_text ms) ++ rest) = Ok (got, rest) /\
    Forall2 (fun m g => answered_as m (fst g) /\ snd g = reply_meant (rr_body m)) ms got.
Proof. exact answers_read. Qed.
Print Assumptions C114_replies.

Lemma names_free ls : forallb (fun nv => clash_freeb (fst nv) (str "transfer-encoding") && clash_freeb (fst nv) (str "content-length")) ls = true -> unconfused_names ls.
Proof.
  intros H. unfold unconfused_names. rewrite forallb_forall in H. apply Forall_forall. intros nv I. apply H in I. apply andb_true_iff in I as [I1 I2].
  split; apply clash_freeb_ok; assumption.
Qed.
Lemma four_sane ls : cl_of ls = Some (str "4") -> sane_length ls.
Proof.
  intros H v E. exists 4. assert (v = str "4") by congruence. subst v. split; [|vm_compute; reflexivity].
  split; [discriminate|]. split; [|reflexivity]. apply Forall_cons; [unfold digit; cbn; lia|apply Forall_nil].
Qed.
Lemma none_sane ls : cl_of ls = None -> sane_length ls.
Proof. intros H v E. congruence. Qed.
Definition reply_to (k : method) (code reason : string) (ls : list line) (x : reply_body) : rfc_reply :=
  mkRfcReply k (str "HTTP/1.1") (str code) (str reason) ls x.
Ltac reply_head := split; [apply ones_ok|]; split; [reflexivity|]; split; [repeat (apply Forall_cons; [unfold digit; cbn; lia|]); apply Forall_nil|];
  split; [cbn; repeat (apply Forall_cons; [unfold field_vchar, vchar, blank, SP, TAB; lia|]); apply Forall_nil|].
Ltac answer_head := split; [right; reflexivity|]; split; [discriminate|];
  split; [exists 0%nat; eexists; split; [reflexivity|apply reason_okb_ok; vm_compute; reflexivity]|];
  split; [repeat (apply Forall_cons; [split; [repeat constructor|reflexivity]|]); apply Forall_nil|split; [cbn; repeat split; repeat constructor|]].
Ltac bodied := unfold bodiless; vm_compute; intros [H|[[H1 H2]|[H|[H|[H [H1 H2]]]]]]; first [discriminate|now apply H2|now apply H1].

(** The answer to a conditional GET says how long the body would be that it does not carry: four octets of the next response are taken
    for its body, and what is left is no response. *)
Theorem C114_not_modified_refuted : exists m m', reply_ok m /\ reply_ok m' /\ answer_readable m' /\ rr_body m = RNone /\
  (exists p r, read_reply (rr_to m) (reply_text m ++ reply_text m') = Ok (p, str "HTTP", r) /\ answered_as m p /\
     forall p' b r', read_reply (rr_to m') r <> Ok (p', b, r')).
Proof.
  exists (reply_to MGet "304" "Not Modified" [cl_line "4"] RNone), (reply_to MGet "200" "OK" [cl_line "4"] (RSized (str "abcd"))).
  split; [|split; [|split; [|split; [reflexivity|]]]].
  - split; [|split; [|split]].
    + reply_head. apply Forall_cons; [exact cl_line_ok|apply Forall_nil].
    + apply pf_none. right. right. right. left. vm_compute. reflexivity.
    + apply names_free. vm_compute. reflexivity.
    + apply four_sane. vm_compute. reflexivity.
  - split; [|split; [|split]].
    + reply_head. apply Forall_cons; [exact cl_line_ok|apply Forall_nil].
    + apply (pf_length _ _ _ (str "4")); [bodied|vm_compute; reflexivity|vm_compute; reflexivity|].
      split; [discriminate|]. split; [|reflexivity]. apply Forall_cons; [unfold digit; cbn; lia|apply Forall_nil].
    + apply names_free. vm_compute. reflexivity.
    + apply four_sane. vm_compute. reflexivity.
  - answer_head. intros [H|[H|H]]; discriminate.
  - eexists. eexists. split; [vm_compute; reflexivity|]. split; [repeat split; vm_compute; reflexivity|].
    intros p' b r' E. vm_compute in E. discriminate.
Qed.
Print Assumptions C114_not_modified_refuted.
(** The body of an answer to OPTIONS (or of a refused CONNECT) is left over; the next response that is read is one that nobody sent. *)
Definition inner_reply : bytes := str "HTTP/1.1 200 OK" ++ CRLF ++ CRLF.
Lemma nineteen_ok : line_ok (cl_line "19").
Proof. line_list. right. right. exists 49, [], 57. split; [reflexivity|]. split; [left; unfold vchar; lia|]. split; [left; unfold vchar; lia|apply Forall_nil]. Qed.
Theorem C114_left_over_refuted : forall k, k = MOptions \/ k = MConnect -> exists m, reply_ok m /\ rr_to m = k /\ rr_body m = RSized inner_reply /\
  exists p q, read_replies [k; MGet] (reply_text m) = Ok ([(p, []); (q, [])], []) /\ answered_as m p /\ p_status q = 200.
Proof.
  intros k Hk. exists (reply_to k "403" "Forbidden" [cl_line "19"] (RSized inner_reply)).
  split; [|split; [reflexivity|split; [reflexivity|]]].
  - assert (D : decimal (str "19") 19).
    { split; [discriminate|]. split; [|reflexivity]. repeat (apply Forall_cons; [unfold digit; cbn; lia|]). apply Forall_nil. }
    split; [|split; [|split]].
    + reply_head. apply Forall_cons; [exact nineteen_ok|apply Forall_nil].
    + apply (pf_length _ _ _ (str "19")); [|vm_compute; reflexivity|vm_compute; reflexivity|exact D].
      destruct Hk as [-> | ->]; bodied.
    + apply names_free. vm_compute. reflexivity.
    + intros v E. vm_compute in E. exists 19. assert (v = str "19") by (vm_compute; congruence). subst v. split; [exact D|vm_compute; reflexivity].
  - destruct Hk as [-> | ->]; (eexists; eexists; split; [vm_compute; reflexivity|]); (split; [repeat split|]; vm_compute; reflexivity).
Qed.
Print Assumptions C114_left_over_refuted.
(** A body that ends with the connection is not read at all (unless a Content-Length happens to count it). *)
Theorem C114_close_refuted : exists m b, reply_ok m /\ rr_body m = RClose b /\ b <> [] /\
  exists p, read_reply (rr_to m) (reply_text m) = Ok (p, [], b) /\ answered_as m p.
Proof.
  exists (reply_to MGet "200" "OK" [] (RClose (str "hello"))), (str "hello"). split; [|split; [reflexivity|split; [discriminate|]]].
  - split; [|split; [|split]].
    + reply_head. apply Forall_nil.
    + apply pf_close; [bodied|vm_compute; reflexivity|vm_compute; reflexivity].
    + apply names_free. vm_compute. reflexivity.
    + apply none_sane. vm_compute. reflexivity.
  - eexists. split; [vm_compute; reflexivity|]. repeat split; vm_compute; reflexivity.
Qed.
Print Assumptions C114_close_refuted.
(** is_nobody denies that a GET request has a body; RFC 9112 section 6 goes by the fields alone. *)
Theorem C114_get_refuted : exists m, message_ok m /\ message_readable m /\ rm_body m = BSized (str "abcd") /\
  exists q, read_message parse_request q_header (message_text m) = Ok (q, str "abcd", []) /\ is_nobody (q_method q) = true.
Proof.
  exists (mkRfcMessage (str "GET") (str "/") (str "HTTP/1.1") [host_line; cl_line "4"] (BSized (str "abcd"))).
  split; [|split; [|split; [reflexivity|]]].
  - split; [|split; [|apply names_free; vm_compute; reflexivity]].
    + split; [split; [discriminate|all_list]|]. split; [apply slash_ok|]. split; [apply ones_ok|].
      apply Forall_cons; [exact host_line_ok|apply Forall_cons; [exact cl_line_ok|apply Forall_nil]].
    + apply (rf_length _ (str "4")); [vm_compute; reflexivity|vm_compute; reflexivity|].
      split; [discriminate|]. split; [|reflexivity]. apply Forall_cons; [unfold digit; cbn; lia|apply Forall_nil].
  - split; [|vm_compute; reflexivity]. split; [exists MGet, "GET"%string; eexists; split; [vm_compute; tauto|]; split; [reflexivity|]; apply wire_url_spec; vm_compute; reflexivity|].
    split; [right; reflexivity|]. split; [|cbn; repeat split; repeat constructor].
    repeat (apply Forall_cons; [split; [repeat constructor|reflexivity]|]). apply Forall_nil.
  - eexists. split; vm_compute; reflexivity.
Qed.
Print Assumptions C114_get_refuted.

(** Responses that are read as meant: to HEAD with a length, without content, chunked, and with a length. *)
Definition four_replies : list rfc_reply :=
  [reply_to MHead "200" "OK" [cl_line "4"] RNone;
   reply_to MPut "204" "No Content" [] RNone;
   reply_to MGet "200" "OK" [te_line "chunked"] (RChunked (mkChunked [mkChunk (str "17") [] inner] 0 [] []));
   reply_to MPost "404" "Not Found" [cl_line "4"] (RSized (str "abcd"))].
Example C114_example : Forall reply_ok four_replies /\ Forall answer_readable four_replies /\ in_order four_replies [] /\
  bytes_ok (concat (map reply_text four_replies)).
Proof.
  split; [|split; [|split; [repeat split|apply bytes_okb_ok; vm_compute; reflexivity]]].
  - unfold four_replies. apply Forall_cons; [|apply Forall_cons; [|apply Forall_cons; [|apply Forall_cons; [|apply Forall_nil]]]].
    + split; [|split; [|split; [apply names_free; vm_compute; reflexivity|apply four_sane; vm_compute; reflexivity]]].
      * reply_head. apply Forall_cons; [exact cl_line_ok|apply Forall_nil].
      * apply pf_none. left. reflexivity.
    + split; [|split; [|split; [apply names_free; vm_compute; reflexivity|apply none_sane; vm_compute; reflexivity]]].
      * reply_head. apply Forall_nil.
      * apply pf_none. right. right. left. vm_compute. reflexivity.
    + split; [|split; [|split; [apply names_free; vm_compute; reflexivity|apply none_sane; vm_compute; reflexivity]]].
      * reply_head. apply Forall_cons; [exact small_line_ok|apply Forall_nil].
      * apply (pf_chunked _ _ _ (str "chunked")); [bodied|vm_compute; reflexivity|vm_compute; reflexivity| |].
        -- split; [|split; [left; reflexivity|apply Forall_nil]]. apply Forall_cons; [|apply Forall_nil].
           split; [discriminate|]. split; [exact hex17|]. split; [left; reflexivity|discriminate].
        -- apply Forall_cons; [vm_compute; reflexivity|apply Forall_nil].
    + split; [|split; [|split; [apply names_free; vm_compute; reflexivity|apply four_sane; vm_compute; reflexivity]]].
      * reply_head. apply Forall_cons; [exact cl_line_ok|apply Forall_nil].
      * apply (pf_length _ _ _ (str "4")); [bodied|vm_compute; reflexivity|vm_compute; reflexivity|].
        split; [discriminate|]. split; [|reflexivity]. apply Forall_cons; [unfold digit; cbn; lia|apply Forall_nil].
  - unfold four_replies. apply Forall_cons; [|apply Forall_cons; [|apply Forall_cons; [|apply Forall_cons; [|apply Forall_nil]]]].
    + answer_head. left. left. reflexivity.
    + answer_head. right. split; [|vm_compute; reflexivity]. intros (v & H & _). vm_compute in H. discriminate.
    + answer_head. split; [intros [H|[H|H]]; discriminate|]. split; [exists (str "chunked"); split; [vm_compute; reflexivity|exists [], []; reflexivity]|repeat constructor].
    + answer_head. intros [H|[H|H]]; discriminate.
Qed.
