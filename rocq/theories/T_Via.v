(** C130: HTTP/1 connections through intermediaries. *)
From Coq Require Import Ascii String NArith ZArith Lia Bool List ZifyBool ZifyNat ZifyN.
From Verif Require Import Base P_Base M_Std M_Helper M_Header M_Url M_Http1 S_Http1 S_Http1Api S_Map S_Url P_Msg P_Map P_Build3 P_Build4 S_Stream T_Stream S_Via P_Via.
Import ListNotations.
Local Open Scope N_scope.

(** Any number of requests with targets that need no escapes and have no query, over any number of relays: the last receiver gets each of them, in
    order, with its method, version, path, header and content, and exactly what it would get from the first sender. *)
Theorem C130_requests : forall n ms, Forall request_ok ms -> Forall plain_target ms -> Forall (fun m => content_fits (snd m)) ms ->
  exists got, via_requests n ms = Ok got /\ Forall2 same_request ms got /\ Forall2 (fun m g => u_path (q_url (fst g)) = u_path (q_url (fst m))) ms got /\
    via_requests n ms = via_requests 0 ms.
Proof. exact via_same. Qed.
Print Assumptions C130_requests.
(** The same for responses. *)
Theorem C130_responses : forall n ms, Forall response_ok ms -> Forall (fun m => content_fits (snd m)) ms ->
  exists got, via_responses n ms = Ok got /\ Forall2 same_response ms got.
Proof. exact via_responses_same. Qed.
Print Assumptions C130_responses.
(** Exactly: a request that was received as [g] passes one relay, and then any number of them, as [g] if and only if the path that was received needs no
    escapes, and it together with the header fields makes the URL that was received. *)
Theorem C130_exact : forall m g, request_ok m -> q_method (fst m) <> MConnect -> bytes_ok (body_content (snd m)) -> content_fits (snd m) -> same_request m g ->
  (via_requests 1 [m] = Ok [g] <->
   plain_path (u_path (q_url (fst g))) /\ wire_url (q_method (fst g)) (u_path (q_url (fst g))) (q_header (fst g)) (q_url (fst g))) /\
  (via_requests 1 [m] = Ok [g] -> forall n, via_requests n [m] = Ok [g]).
Proof. exact via_exact. Qed.
Print Assumptions C130_exact.

(** The conditions are met: the three requests of C81, the second one without its query. *)
Definition post_plain : request * body_form :=
  (mkReq MPost V11 (mkUrl ScNone (str "/b") None None None None None) [(str "Host", str "h"); (str "Content-Length", str "5")] false, Sized (str "hello")).
Example C130_met : Forall request_ok [sample_get; post_plain; sample_chunked] /\ Forall plain_target [sample_get; post_plain; sample_chunked] /\
  Forall (fun m => content_fits (snd m)) [sample_get; post_plain; sample_chunked] /\
  exists got, via_requests 3 [sample_get; post_plain; sample_chunked] = Ok got /\ map snd got = [[]; str "hello"; str "GET / HTTP/1.1"] /\
    map (fun g => u_path (q_url (fst g))) got = [str "/a"; str "/b"; str "/c"].
Proof.
  split; [|split; [|split]].
  - destruct C81_nonvacuous as (H & _). apply Forall_cons_iff in H as [H1 H]. apply Forall_cons_iff in H as [H2 H3].
    apply Forall_cons; [exact H1|]. apply Forall_cons; [|exact H3]. destruct H2 as (A1 & A2 & _ & _ & A5 & A6 & A7).
    split; [exact A1|]. split; [exact A2|]. split; [split; [discriminate|repeat constructor; discriminate]|].
    split; [eexists; apply wire_url_spec; vm_compute; reflexivity|]. split; [exact A5|]. split; [exact A6|exact A7].
  - assert (P : forall x, plain_path (str (String "/" (String x EmptyString))) <-> vchar (N_of_ascii x) /\ N_of_ascii x <> 37 /\ N_of_ascii x <> 63 /\ N_of_ascii x <> 64).
    { intros x. change (str (String "/" (String x EmptyString))) with [47; N_of_ascii x]. unfold plain_path. split.
      - intros [_ H]. apply Forall_inv_tail, Forall_inv in H. exact H.
      - intros H. split; [reflexivity|]. constructor; [unfold vchar; lia|]. constructor; [exact H|constructor]. }
    repeat (apply Forall_cons; [split; [discriminate|apply P; vm_compute; repeat split; discriminate]|]). apply Forall_nil.
  - repeat (apply Forall_cons; [vm_compute; reflexivity|]). apply Forall_nil.
  - eexists. split; [vm_compute; reflexivity|]. split; reflexivity.
Qed.
(** Refuted for the others: the escapes of a path are resolved once at every relay, so that another resource is asked for at each; ... *)
Definition asks (p : string) : request * body_form :=
  (mkReq MGet V11 (mkUrl ScNone (str p) None None None None None) [(str "Host", str "h")] false, Sized []).
Definition asked (x : res (list (request * bytes))) : res (list (bytes * option bytes)) := got <- x ;; Ok (map (fun g => (u_path (q_url (fst g)), u_query (q_url (fst g)))) got).
Theorem C130_escapes_refuted : request_ok (asks "/%2525252e") /\
  asked (via_requests 0 [asks "/%2525252e"]) = Ok [(str "/%25252e", None)] /\ asked (via_requests 1 [asks "/%2525252e"]) = Ok [(str "/%252e", None)] /\
  asked (via_requests 2 [asks "/%2525252e"]) = Ok [(str "/%2e", None)] /\ asked (via_requests 3 [asks "/%2525252e"]) = Ok [(str "/.", None)].
Proof.
  split; [|repeat split; vm_compute; reflexivity].
  split; [vm_compute; tauto|]. split; [vm_compute; tauto|]. split; [split; [discriminate|repeat constructor; discriminate]|].
  split; [eexists; apply wire_url_spec; vm_compute; reflexivity|]. split; [apply fields_okb_ok; vm_compute; reflexivity|]. split; [cbn; repeat split; repeat constructor|].
  apply fr_none; vm_compute; reflexivity.
Qed.
Print Assumptions C130_escapes_refuted.
(** ... the query is lost at the first one; ... *)
Theorem C130_query_refuted : request_ok (asks "/a?b=c") /\
  asked (via_requests 0 [asks "/a?b=c"]) = Ok [(str "/a", Some (str "b=c"))] /\ asked (via_requests 1 [asks "/a?b=c"]) = Ok [(str "/a", None)].
Proof.
  split; [|split; vm_compute; reflexivity].
  split; [vm_compute; tauto|]. split; [vm_compute; tauto|]. split; [split; [discriminate|repeat constructor; discriminate]|].
  split; [eexists; apply wire_url_spec; vm_compute; reflexivity|]. split; [apply fields_okb_ok; vm_compute; reflexivity|]. split; [cbn; repeat split; repeat constructor|].
  apply fr_none; vm_compute; reflexivity.
Qed.
Print Assumptions C130_query_refuted.
(** ... and an escaped blank ends the target: the request is not readable behind the first relay. *)
Theorem C130_blank_refuted : request_ok (asks "/a%20b") /\ asked (via_requests 0 [asks "/a%20b"]) = Ok [(str "/a b", None)] /\
  (exists e, asked (via_requests 1 [asks "/a%20b"]) = Err e).
Proof.
  split; [|split; [vm_compute; reflexivity|eexists; vm_compute; reflexivity]].
  split; [vm_compute; tauto|]. split; [vm_compute; tauto|]. split; [split; [discriminate|repeat constructor; discriminate]|].
  split; [eexists; apply wire_url_spec; vm_compute; reflexivity|]. split; [apply fields_okb_ok; vm_compute; reflexivity|]. split; [cbn; repeat split; repeat constructor|].
  apply fr_none; vm_compute; reflexivity.
Qed.
Print Assumptions C130_blank_refuted.
