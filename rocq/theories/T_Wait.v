(** C08: exactly when a Partial answer of the HTTP/1 head parsers is hopeless. *)
From Coq Require Import Ascii String NArith ZArith Lia Bool List.
From Verif Require Import Base P_Base M_Std M_Helper M_Header M_Url M_Http1 S_Http1 S_Http1Api P_Http1 P_Msg S_Hex S_Url S_Wait P_Wait.
Import ListNotations.
Local Open Scope N_scope.

(** The full claim is that every Partial can be resolved.  C08_tab_refuted and
    C08_escape_refuted show that it is false; here are exactly the inputs for
    which it fails.  For all others three CR octets already get a definite
    answer. *)
Theorem C08_request_partial : forall q l, bytes_ok l -> snd (req_parse q l) = partial -> ~ hopeless_request l ->
  exists e, snd (req_parse q (l ++ [CR; CR; CR])) = Err e /\ e <> EHttp Partial.
Proof. intros q l Hl H N. destruct (request_wait q l Hl H) as [K|K]; [contradiction|exact K]. Qed.
Print Assumptions C08_request_partial.
Theorem C08_request_exact : forall q l, bytes_ok l ->
  ((forall x, snd (req_parse q (l ++ x)) = partial) <-> hopeless_request l).
Proof. exact request_hopeless. Qed.
Print Assumptions C08_request_exact.
Theorem C08_response_partial : forall p l, bytes_ok l -> snd (resp_parse p l) = partial -> ~ hopeless_response l ->
  exists e, snd (resp_parse p (l ++ [CR; CR; CR])) = Err e /\ e <> EHttp Partial.
Proof. intros q l Hl H N. destruct (response_wait q l Hl H) as [K|K]; [contradiction|exact K]. Qed.
Print Assumptions C08_response_partial.
Theorem C08_response_exact : forall p l, bytes_ok l ->
  ((forall x, snd (resp_parse p (l ++ x)) = partial) <-> hopeless_response l).
Proof. exact response_hopeless. Qed.
Print Assumptions C08_response_exact.
Theorem C08_header_exact : forall l, bytes_ok l ->
  ((forall x, snd (parse_header (l ++ x)) = partial) <-> hopeless_fields l).
Proof. exact fields_hopeless. Qed.
Print Assumptions C08_header_exact.
(** The targets that are unfinished URLs, for the usual form of targets. *)
Theorem C08_target : forall t, hd_error t = Some 47 -> (url_parse t = partial <-> unfinished_origin t).
Proof. exact origin_unfinished. Qed.
Print Assumptions C08_target.

(** Both kinds of Partial occur. *)
Example C08_hopeless_nonvacuous : hopeless_request (str "GET / HTTP/1.1" ++ CRLF ++ str "A:" ++ [CR] ++ str "x") /\
  hopeless_response (str "HTTP/1.1 200 OK" ++ [9]) /\ unfinished_origin (str "/a?b=%4").
Proof.
  split; [|split].
  - apply (hq_fields [] MGet 0 (str "/") 0 V11 CRLF (str "A:" ++ [CR] ++ str "x")); try (cbn; tauto); try constructor.
    + discriminate.
    + repeat constructor; vm_compute; discriminate.
    + apply (hf_line (str "A") 0 0 120 []).
      * split; [discriminate|]. repeat constructor; vm_compute; discriminate.
      * repeat split; discriminate.
  - apply (hp_line [] V11 0 200 0 (str "OK") 9 []); try (cbn; tauto); try constructor; try lia.
    + discriminate.
    + split; [repeat constructor; vm_compute; discriminate|discriminate].
    + discriminate.
    + split; discriminate.
  - apply (uo_query (str "a") (str "/a") (str "b=%4")).
    + repeat constructor; vm_compute; discriminate.
    + split; [repeat (constructor; [vm_compute; discriminate|]); constructor|].
      apply utf8_valid_iff. reflexivity.
    + repeat constructor; vm_compute; discriminate.
    + exists (str "b="), (str "b="), (str "%4"). split; [repeat (constructor; [vm_compute; discriminate|]); constructor|].
      split; [right; eexists; reflexivity|reflexivity].
Qed.
Example C08_wait_nonvacuous : let l := str "GET / HTTP/1.1" ++ CRLF ++ str "A: x" in
  snd (req_parse req_default l) = partial /\ ~ hopeless_request l /\
  snd (req_parse req_default (l ++ CRLF ++ CRLF)) = Ok 24.
Proof.
  cbv zeta. split; [vm_compute; reflexivity|]. split; [|vm_compute; reflexivity].
  intros K. assert (B : bytes_ok (str "GET / HTTP/1.1" ++ CRLF ++ str "A: x")) by (apply bytes_okb_ok; reflexivity).
  pose proof (proj2 (request_hopeless req_default _ B) K (CRLF ++ CRLF)) as E. vm_compute in E. discriminate.
Qed.
