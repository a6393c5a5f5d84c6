(** Lemmas on HTTP/1 connections through intermediaries (C130). *)
From Coq Require Import Ascii String NArith ZArith Lia Bool List ZifyBool ZifyNat ZifyN.
From Verif Require Import Base P_Base M_Std M_Helper M_Header M_Url M_Http1 S_Http1 S_Http1Api S_Map S_Url P_Msg P_Stream P_Url P_UrlForm S_Stream P_HttpExact S_Hex P_Chunk S_Rfc9112 S_RfcBody P_RfcBody S_Via.
Import ListNotations.
Local Open Scope N_scope.

Lemma framed_again h f : framed h f -> content_fits f -> framed h (form_again h (body_content f)) /\ body_content (form_again h (body_content f)) = body_content f.
Proof.
  intros F S. unfold form_again. rewrite (framed_chunked _ _ F). destruct F as [H1 H2|b v H1 H2 H3 H4|cs H1 H2].
  - split; [apply fr_none; assumption|reflexivity].
  - split; [eapply fr_length; eassumption|reflexivity].
  - unfold content_fits in S. cbn [body_content] in *. destruct (concat cs) as [|x l] eqn:E.
    + split; [apply fr_chunked; [exact H1|constructor]|reflexivity].
    + split; [|cbn [body_content concat]; apply app_nil_r]. apply fr_chunked; [exact H1|]. constructor; [|constructor]. split; [discriminate|exact S].
Qed.
Lemma over_requests_ok ms : Forall request_ok ms -> exists got, over_requests ms = Ok got /\ Forall2 same_request ms got.
Proof.
  intros H. destruct (requests_stream ms H) as (w & got & E & V & R & _). exists got. split; [|exact V].
  unfold over_requests. rewrite E. cbn [bind]. specialize (R []). rewrite app_nil_r in R. rewrite R. reflexivity.
Qed.
Lemma over_responses_ok ms : Forall response_ok ms -> exists got, over_responses ms = Ok got /\ Forall2 same_response ms got.
Proof.
  intros H. destruct (responses_stream ms H) as (w & got & E & V & R & _). exists got. split; [|exact V].
  unfold over_responses. rewrite E. cbn [bind]. specialize (R []). rewrite app_nil_r in R. rewrite R. reflexivity.
Qed.
Lemma same_request_fun m g g' : same_request m g -> same_request m g' -> g = g'.
Proof.
  destruct g as [[m1 v1 u1 h1 b1] c1], g' as [[m2 v2 u2 h2 b2] c2]. unfold same_request. cbn [fst snd q_method q_version q_url q_header q_partial].
  intros (-> & -> & -> & -> & U1 & ->) (-> & -> & -> & -> & U2 & ->). rewrite (wire_url_fun _ _ _ _ _ U1 U2). reflexivity.
Qed.
Lemma same_response_fun m g g' : same_response m g -> same_response m g' -> g = g'.
Proof. destruct g, g'. intros [H1 H2] [H3 H4]. cbn in *. congruence. Qed.
Lemma same_all_fun {A B} (R : A -> B -> Prop) : (forall a b b', R a b -> R a b' -> b = b') -> forall l g g', Forall2 R l g -> Forall2 R l g' -> g = g'.
Proof. intros F l. induction l as [|a l IH]; intros g g' H H'; inversion H; inversion H'; subst; [reflexivity|]. f_equal; eauto. Qed.

(** A request with such a target, once received, is sent on and received as what it is. *)
Lemma path_kept m g : same_request m g -> plain_target m -> u_path (q_url (fst g)) = u_path (q_url (fst m)).
Proof.
  intros (_ & _ & _ & _ & U & _) [C P]. destruct (wire_url_path _ _ _ _ C U) as (u0 & E & -> & _).
  rewrite (url_parse_plain _ P) in E. injection E as <-. reflexivity.
Qed.
Lemma request_stable m g : request_ok m -> plain_target m -> content_fits (snd m) -> same_request m g ->
  request_ok (request_again g) /\ plain_target (request_again g) /\ content_fits (snd (request_again g)) /\ same_request (request_again g) g.
Proof.
  intros (M & V & W & U & F & D & FR) P S G. pose proof (path_kept m g G P) as K. destruct G as (G1 & G2 & G3 & G4 & G5 & G6).
  destruct (framed_again _ _ FR S) as [A1 A2]. rewrite <- G3, <- G6 in A1, A2. unfold request_again, request_ok, plain_target, content_fits, same_request. cbn [fst snd].
  rewrite K, G1, G2, A2, G6. rewrite G3 in A1 |- *. unfold content_fits in S. repeat match goal with |- _ /\ _ => split end; try assumption; try reflexivity; try apply P.
  rewrite <- G6. exact A1.
Qed.
Lemma requests_stable ms got : Forall request_ok ms -> Forall plain_target ms -> Forall (fun m => content_fits (snd m)) ms -> Forall2 same_request ms got ->
  Forall request_ok (map request_again got) /\ Forall plain_target (map request_again got) /\ Forall (fun m => content_fits (snd m)) (map request_again got) /\
  Forall2 same_request (map request_again got) got.
Proof.
  intros H1 H2 H3 V. induction V as [|m g ms got G V IH]; [repeat split; constructor|].
  apply Forall_cons_iff in H1 as [A1 B1]. apply Forall_cons_iff in H2 as [A2 B2]. apply Forall_cons_iff in H3 as [A3 B3].
  destruct (IH B1 B2 B3) as (I1 & I2 & I3 & I4). destruct (request_stable m g A1 A2 A3 G) as (J1 & J2 & J3 & J4).
  cbn [map]. repeat split; constructor; assumption.
Qed.
Lemma via_fixed n : forall ms got, Forall request_ok ms -> Forall plain_target ms -> Forall (fun m => content_fits (snd m)) ms -> over_requests ms = Ok got ->
  Forall2 same_request ms got -> via_requests n ms = Ok got.
Proof.
  induction n as [|n IH]; intros ms got H1 H2 H3 E V; cbn [via_requests]; rewrite E; cbn [bind]; [reflexivity|].
  destruct (requests_stable ms got H1 H2 H3 V) as (I1 & I2 & I3 & I4). destruct (over_requests_ok _ I1) as (got' & E' & V').
  rewrite (same_all_fun same_request same_request_fun _ _ _ I4 V'). rewrite <- (same_all_fun same_request same_request_fun _ _ _ I4 V') in E'.
  rewrite <- (same_all_fun same_request same_request_fun _ _ _ I4 V'). apply IH; assumption.
Qed.
Lemma via_same n ms : Forall request_ok ms -> Forall plain_target ms -> Forall (fun m => content_fits (snd m)) ms ->
  exists got, via_requests n ms = Ok got /\ Forall2 same_request ms got /\ Forall2 (fun m g => u_path (q_url (fst g)) = u_path (q_url (fst m))) ms got /\ via_requests n ms = via_requests 0 ms.
Proof.
  intros H1 H2 H3. destruct (over_requests_ok ms H1) as (got & E & V). exists got. rewrite !(via_fixed _ ms got) by assumption.
  split; [reflexivity|]. split; [exact V|]. split; [|reflexivity]. clear - V H2. induction V; constructor; apply Forall_cons_iff in H2 as [A B]; [apply path_kept; assumption|auto].
Qed.
Lemma response_stable m g : response_ok m -> content_fits (snd m) -> same_response m g ->
  response_ok (response_again g) /\ content_fits (snd (response_again g)) /\ same_response (response_again g) g.
Proof.
  intros (V & R & F & D & FR) S [G1 G2]. destruct (framed_again _ _ FR S) as [A1 A2]. rewrite <- G2 in A1, A2.
  unfold response_again, response_ok, content_fits, same_response. rewrite G1. cbn [fst snd p_version p_status p_header].
  rewrite A2, G2. rewrite G2 in A1. unfold content_fits in S. repeat match goal with |- _ /\ _ => split end; try assumption; try reflexivity.
Qed.
Lemma responses_stable ms got : Forall response_ok ms -> Forall (fun m => content_fits (snd m)) ms -> Forall2 same_response ms got ->
  Forall response_ok (map response_again got) /\ Forall (fun m => content_fits (snd m)) (map response_again got) /\ Forall2 same_response (map response_again got) got.
Proof.
  intros H1 H3 V. induction V as [|m g ms got G V IH]; [repeat split; constructor|].
  apply Forall_cons_iff in H1 as [A1 B1]. apply Forall_cons_iff in H3 as [A3 B3].
  destruct (IH B1 B3) as (I1 & I3 & I4). destruct (response_stable m g A1 A3 G) as (J1 & J3 & J4).
  cbn [map]. repeat split; constructor; assumption.
Qed.
Lemma via_responses_fixed n : forall ms got, Forall response_ok ms -> Forall (fun m => content_fits (snd m)) ms -> over_responses ms = Ok got ->
  Forall2 same_response ms got -> via_responses n ms = Ok got.
Proof.
  induction n as [|n IH]; intros ms got H1 H3 E V; cbn [via_responses]; rewrite E; cbn [bind]; [reflexivity|].
  destruct (responses_stable ms got H1 H3 V) as (I1 & I3 & I4). destruct (over_responses_ok _ I1) as (got' & E' & V').
  rewrite <- (same_all_fun same_response same_response_fun _ _ _ I4 V') in E'. apply IH; assumption.
Qed.
Lemma via_responses_same n ms : Forall response_ok ms -> Forall (fun m => content_fits (snd m)) ms ->
  exists got, via_responses n ms = Ok got /\ Forall2 same_response ms got.
Proof.
  intros H1 H3. destruct (over_responses_ok ms H1) as (got & E & V). exists got. rewrite (via_responses_fixed _ ms got) by assumption. auto.
Qed.
(** What is sent is octets. *)
Lemma hex_print_bytes n : bytes_ok (hex_print n).
Proof.
  destruct (hex_print_num n) as [H _]. apply hex_forall in H. eapply Forall_impl; [|exact H]. intros b [d K]. apply hexv_spec in K.
  unfold convert_hex in K. unfold byte_ok. destruct ((48 <=? b) && (b <=? 57)) eqn:E1; [lia|]. destruct ((65 <=? b) && (b <=? 70)) eqn:E2; [lia|].
  destruct ((97 <=? b) && (b <=? 102)) eqn:E3; [lia|discriminate].
Qed.
Lemma chunk_bytes d : bytes_ok d -> bytes_ok (encode_chunk_data d).
Proof.
  intros H. unfold encode_chunk_data, bytes_ok. rewrite !Forall_app. repeat split; try exact H; try (repeat constructor). apply hex_print_bytes.
Qed.
Lemma again_bytes h b : bytes_ok b -> bytes_ok (body_octets (form_again h b)).
Proof.
  intros H. unfold form_again. destruct (hm_is_chunked h); [|exact H]. cbn [body_octets]. destruct b as [|x b]; cbn [map concat].
  - apply chunk_bytes. constructor.
  - apply Forall_app. split; [|apply chunk_bytes; constructor]. rewrite app_nil_r. apply chunk_bytes, H.
Qed.
Lemma over_one q f got : over_requests [(q, f)] = Ok got -> exists w q' n b, req_http1_data q (body_octets f) = Ok w /\ req_parse req_default w = (q', Ok n) /\ got = [(q', b)].
Proof.
  unfold over_requests. cbn [send_all length read_messages]. unfold send_request at 1. cbn [fst snd].
  destruct (req_http1_data q (body_octets f)) as [w| | |] eqn:E; try discriminate. cbn [bind]. rewrite app_nil_r.
  unfold read_message. destruct (parse_request w) as [[a n]| | |] eqn:P; try discriminate. cbn [bind].
  destruct (read_body (q_header a) (skipn (N.to_nat n) w)) as [[b r]| | |] eqn:B; try discriminate. cbn [bind]. destruct r; [|discriminate]. intros X. injection X as <-.
  unfold parse_request in P. destruct (req_parse req_default w) as [q1 r1] eqn:R. destruct r1; try discriminate. cbn [bind] in P. injection P as -> ->.
  exists w, a, n, b. auto.
Qed.
(** The first relay is the only one that matters, and it changes nothing exactly for the plain targets of origin form. *)
Lemma via_exact m g : request_ok m -> q_method (fst m) <> MConnect -> bytes_ok (body_content (snd m)) -> content_fits (snd m) -> same_request m g ->
  (via_requests 1 [m] = Ok [g] <->
   plain_path (u_path (q_url (fst g))) /\ wire_url (q_method (fst g)) (u_path (q_url (fst g))) (q_header (fst g)) (q_url (fst g))) /\
  (via_requests 1 [m] = Ok [g] -> forall n, via_requests n [m] = Ok [g]).
Proof.
  intros OK C B SZ G. destruct (over_requests_ok [m]) as (got & E & V); [constructor; [exact OK|constructor]|].
  assert (got = [g]) as ->. { inversion V as [|? g' ? ? V1 V2]; subst. inversion V2; subst. f_equal. eapply same_request_fun; eassumption. }
  destruct OK as (M & VV & W & U & F & D & FR). destruct (framed_again _ _ FR SZ) as [A1 A2].
  pose proof G as (G1 & G2 & G3 & G4 & G5 & G6). rewrite <- G3, <- G6 in A1, A2.
  assert (STEP : forall n, via_requests (S n) [m] = via_requests n [request_again g]) by (intros n; cbn [via_requests]; rewrite E; reflexivity).
  assert (BACK : plain_path (u_path (q_url (fst g))) /\ wire_url (q_method (fst g)) (u_path (q_url (fst g))) (q_header (fst g)) (q_url (fst g)) -> forall n, via_requests n [m] = Ok [g]).
  { intros [P1 P2].
    assert (K : request_ok (request_again g) /\ plain_target (request_again g) /\ content_fits (snd (request_again g)) /\ same_request (request_again g) g).
    { unfold request_again, request_ok, plain_target, content_fits, same_request. cbn [fst snd]. rewrite A2.
      assert (SS : blen (snd g) + 2 < 2 ^ 64) by (rewrite G6; exact SZ).
      rewrite G1, G2, G3 in *. repeat match goal with |- _ /\ _ => split end; try assumption; try reflexivity; try (apply plain_path_word, P1).
      exists (q_url (fst g)). exact P2. }
    destruct K as (K1 & K2 & K3 & K4). destruct (over_requests_ok [request_again g]) as (got' & E' & V'); [constructor; [exact K1|constructor]|].
    assert (got' = [g]) as ->. { inversion V' as [|? g' ? ? X1 X2]; subst. inversion X2; subst. f_equal. eapply same_request_fun; eassumption. }
    intros [|n]; [cbn [via_requests]; rewrite E; reflexivity|]. rewrite STEP. apply via_fixed; try (constructor; [assumption|constructor]). exact E'. }
  assert (FORTH : via_requests 1 [m] = Ok [g] -> plain_path (u_path (q_url (fst g))) /\ wire_url (q_method (fst g)) (u_path (q_url (fst g))) (q_header (fst g)) (q_url (fst g))).
  { intros H. rewrite STEP in H. cbn [via_requests] in H. destruct (over_requests [request_again g]) as [got'| | |] eqn:E'; try discriminate. cbn [bind] in H. injection H as ->.
    unfold request_again in E'. destruct (over_one _ _ _ E') as (w & q' & n & b & X1 & X2 & X3). injection X3 as X3. subst g. cbn [fst snd] in *.
    assert (BP : bytes_ok (u_path (q_url q'))).
    { destruct (wire_url_path _ _ _ _ C G5) as (u0 & U0 & -> & _).
      assert (BT : bytes_ok (u_path (q_url (fst m)))) by (eapply Forall_impl; [|apply W]; unfold vchar, byte_ok; cbn; intros; lia).
      destruct (url_parse_facts _ _ BT U0) as (_ & _ & X & _). apply utf8_bytes_ok, X. }
    destruct (request_survives q' req_default (body_octets (form_again (q_header q') b))) as (w2 & Y1 & Y2); try (rewrite ?G1, ?G2, ?G3; assumption); [apply again_bytes; rewrite G6; exact B|].
    rewrite X1 in Y1. injection Y1 as ->. destruct Y2 as [Y2 _]. destruct Y2 as (P1 & P2 & P3); [exists q', n; auto|].
    split; [exact P1|].
    destruct (request_roundtrip q' req_default (body_octets (form_again (q_header q') b))) as (w3 & u & Z1 & Z2 & Z3 & Z4 & Z5); try (rewrite ?G1, ?G2, ?G3; assumption); try assumption.
    rewrite X1 in Z1. injection Z1 as Z1. apply app_inv_tail in Z1 as <-. rewrite X2 in Z2. injection Z2 as Z2 _. assert (ZU : q_url q' = u) by (rewrite Z2; reflexivity). rewrite <- ZU in Z5. exact Z5. }
  split; [split; [exact FORTH|intros H; apply (BACK H 1%nat)]|]. intros H. exact (BACK (FORTH H)).
Qed.
