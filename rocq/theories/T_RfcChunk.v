(** C128: chunked bodies that are received and sent on. *)
From Coq Require Import Ascii String NArith ZArith Lia Bool List ZifyBool ZifyNat ZifyN.
From Verif Require Import Base P_Base M_Std M_Helper M_Header M_Url M_Http1 S_Map S_Hex S_Http1 S_Http1Api P_Map P_Msg S_Url S_UrlAll S_Build S_Stream S_Rfc9112 P_Rfc9112 T_Rfc9112 S_RfcBody P_RfcBody T_RfcBody
  S_RfcMessage P_RfcMessage T_RfcMessage S_RfcChunk P_RfcChunk.
Import ListNotations.
Local Open Scope N_scope.

(** The octets of a body of the RFC are the same behind the relay, and all of them and no others are taken, exactly if there are no extensions and no
    trailer fields and every size is written without zeros in front and in small letters. *)
Theorem C128_same : forall b rest, chunked_ok b -> counted b ->
  (passed_on (chunked_text b ++ rest) = Ok (chunked_text b, rest) <-> plain b /\ short_sizes b).
Proof. exact passed_same. Qed.
Print Assumptions C128_same.
(** Without extensions and trailer fields the blocks always stay the same. *)
Theorem C128_content : forall b rest, chunked_ok b -> counted b -> plain b ->
  exists b', chunked_ok b' /\ plain b' /\ short_sizes b' /\ chunked_data b' = chunked_data b /\
    passed_on (chunked_text b ++ rest) = Ok (chunked_text b', rest).
Proof. exact passed_content. Qed.
Print Assumptions C128_content.
(** Whatever octets a relay accepts, it sends on a body of the RFC in its shortest form, with the blocks that it read. *)
Theorem C128_any : forall l w rest, passed_on l = Ok (w, rest) ->
  exists b, chunked_ok b /\ counted b /\ plain b /\ short_sizes b /\ w = chunked_text b /\ lax_body l (chunked_data b) rest.
Proof. exact passed_any. Qed.
Print Assumptions C128_any.
(** A second relay changes nothing more. *)
Theorem C128_twice : forall l w rest more, passed_on l = Ok (w, rest) -> passed_on (w ++ more) = Ok (w, more).
Proof. exact passed_twice. Qed.
Print Assumptions C128_twice.
(** Bodies with extensions are not sent on at all. *)
Theorem C128_extensions : forall b rest w r, chunked_ok b -> counted b -> passed_on (chunked_text b ++ rest) = Ok (w, r) ->
  Forall (fun c => ck_ext c = []) (cd_chunks b) /\ cd_ext b = [].
Proof. exact passed_ext. Qed.
Print Assumptions C128_extensions.
(** Trailer fields are not sent on: all but two octets of them are left, in front of what follows. *)
Theorem C128_trailer : forall b rest, chunked_ok b -> counted b -> Forall (fun c => ck_ext c = []) (cd_chunks b) -> cd_ext b = [] ->
  exists b', chunked_ok b' /\ plain b' /\ short_sizes b' /\ chunked_data b' = chunked_data b /\
    passed_on (chunked_text b ++ rest) = Ok (chunked_text b', skipn 2 (lines_text (cd_trailer b)) ++ rest).
Proof. exact passed_but. Qed.
Print Assumptions C128_trailer.

(** The conditions are met: the body with "3" and "a" as sizes stays the same, that with "003" and "A" becomes it. *)
Definition short_body : chunked :=
  mkChunked [mkChunk (str "3") [] (str "abc"); mkChunk (str "a") [] (str "0123456789")] 0 [] [].
Example C128_met : chunked_ok short_body /\ counted short_body /\ plain short_body /\ short_sizes short_body /\ ~ short_sizes plain_body /\
  passed_on (chunked_text plain_body ++ str "GET") = Ok (chunked_text short_body, str "GET").
Proof.
  unfold chunked_ok, counted. repeat match goal with |- _ /\ _ => split end; cbn [cd_chunks cd_ext cd_trailer short_body].
  - apply Forall_cons; [|apply Forall_cons; [|apply Forall_nil]]; (split; [discriminate|split; [|split; [left; reflexivity|discriminate]]]).
    + change (str "3") with ([] ++ [51]). change (blen _) with (16 * 0 + 3). apply hn_snoc; [constructor|left; reflexivity].
    + change (str "a") with ([] ++ [97]). change (blen _) with (16 * 0 + 10). apply hn_snoc; [constructor|left; reflexivity].
  - left; reflexivity.
  - apply Forall_nil.
  - apply Forall_cons; [vm_compute; reflexivity|apply Forall_cons; [vm_compute; reflexivity|apply Forall_nil]].
  - repeat split. repeat constructor.
  - split; [|reflexivity].
    apply Forall_cons; [|apply Forall_cons; [|apply Forall_nil]]; (split; [apply Forall_cons; [vm_compute; tauto|apply Forall_nil]|right; discriminate]).
  - intros [_ H]. discriminate H.
  - vm_compute. reflexivity.
Qed.
(** So it is not true that every body of the RFC is sent on as it was, nor that its content always is. *)
Theorem C128_same_refuted : ~ (forall b rest, chunked_ok b -> counted b -> plain b -> passed_on (chunked_text b ++ rest) = Ok (chunked_text b, rest)).
Proof.
  intros H. destruct C112_ok as (_ & _ & _ & B1 & B2 & _ & B3 & _). destruct C128_met as (_ & _ & _ & _ & N1 & _).
  apply N1. apply (passed_same plain_body [] B1 B2), H; assumption.
Qed.
Print Assumptions C128_same_refuted.

(** A trailer field whose value is a request line: the receiver of this one conforming request reads two, the second one made from the trailer. *)
Definition hidden_line : line := mkLine (str "X") [] (str "GET /admin HTTP/1.1") [].
Definition hidden_body : chunked := mkChunked [mkChunk (str "3") [] (str "abc")] 0 [] [hidden_line].
Definition hidden : rfc_message :=
  mkRfcMessage (str "POST") (str "/") (str "HTTP/1.1") [host_line; te_line "chunked"] (BChunked hidden_body).
Lemma hidden_line_ok : line_ok hidden_line.
Proof.
  line_list. right. right. exists 71, (str "ET /admin HTTP/1."), 49. split; [reflexivity|].
  split; [left; unfold vchar; lia|]. split; [left; unfold vchar; lia|]. cbn.
  repeat (apply Forall_cons; [first [left; left; unfold vchar; lia|right; left; reflexivity]|]). apply Forall_nil.
Qed.
Lemma hidden_ok : message_ok hidden.
Proof.
  split; [|split].
  - split; [split; [discriminate|all_list]|]. split; [apply slash_ok|]. split; [apply ones_ok|].
    apply Forall_cons; [exact host_line_ok|apply Forall_cons; [exact small_line_ok|apply Forall_nil]].
  - apply (rf_chunked _ (str "chunked")); [vm_compute; reflexivity|vm_compute; reflexivity| |].
    + split; [|split; [left; reflexivity|apply Forall_cons; [exact hidden_line_ok|apply Forall_nil]]]. apply Forall_cons; [|apply Forall_nil].
      split; [discriminate|]. split; [|split; [left; reflexivity|discriminate]].
      change (ck_size _) with ([] ++ [51]). change (blen _) with (16 * 0 + 3). apply hn_snoc; [constructor|left; reflexivity].
    + apply Forall_cons; [vm_compute; reflexivity|apply Forall_nil].
  - repeat (apply Forall_cons; [split; apply clash_freeb_ok; vm_compute; reflexivity|]). apply Forall_nil.
Qed.
Theorem C128_smuggling_refuted : exists m q1 q2,
  message_ok m /\ head_readable m /\ read_messages parse_request q_header 2 (message_text m) = Ok ([(q1, body_meant (rm_body m)); (q2, [])], []) /\
  received_as m q1 /\ q_method q2 = MGet /\ u_path (q_url q2) = str "/admin".
Proof.
  exists hidden. eexists. eexists. split; [exact hidden_ok|]. split; [|split].
  - split; [|split; [right; reflexivity|split]].
    + exists MPost, "POST"%string. eexists. split; [vm_compute; tauto|]. split; [reflexivity|]. apply wire_url_spec. vm_compute. reflexivity.
    + repeat (apply Forall_cons; [split; [repeat constructor|reflexivity]|]). apply Forall_nil.
    + cbn. repeat split; repeat constructor.
  - vm_compute. reflexivity.
  - split; [repeat split; vm_compute; reflexivity|]. split; vm_compute; reflexivity.
Qed.
Print Assumptions C128_smuggling_refuted.
