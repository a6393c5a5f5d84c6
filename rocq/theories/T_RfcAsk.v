(** C120: the HTTP/2 requests and responses that are sent are those of RFC 9113 section 8. *)
From Coq Require Import Ascii String NArith ZArith Lia Bool List Permutation ZifyBool ZifyNat ZifyN.
From Verif Require Import Base S_Utf8 P_Base M_Header M_Url M_Http1 S_Http1Api S_Url M_Std P_Msg M_Hpack S_Hpack S_HpackApi P_HpackSync
  M_Frame M_H2 S_Frame S_FrameAll S_Rfc9112 S_Rfc9113 S_RfcMeans P_RfcMeans S_WriteAll P_WriteAll S_RfcFrames P_RfcFrames T_RfcFrames S_RfcSend S_RfcAsk P_RfcAsk S_Http1.
Import ListNotations.
Local Open Scope N_scope.

(** What Parts::request and encode_header make of a method and a URL, with the fields inserted behind it, is a conforming
    request that means them exactly if the URL has the port of its scheme, no user, no password, no query, and nothing
    in the host and the path that has to be escaped, if a field Host is the host without the port, if no field belongs to
    the connection, and if no two names compare equal. *)
Theorem C120_request : forall m u pr fs, asks m u fs (map lower_field (request_behind m u pr fs)) <-> request_sendable m u fs.
Proof. exact request_exactly. Qed.
Print Assumptions C120_request.
(** The same for the octets of the frames, as far as the fields arrive at all (C118). *)
Theorem C120_request_wire : forall room max dyn id fl m u pr fs t b peer', let h := mkHeaders id None (request_behind m u pr fs) parts_default fl in
  room < 16777216 -> table_typed max dyn -> frame_typed (FHeaders h) -> frame_encode room (table_of max dyn) (FHeaders h) = Ok (t, b) ->
  frame_plain (FHeaders h) b -> frame_fine room max dyn (FHeaders h) ->
  (told room max (map lower_field dyn) id (flag_on fl 0) (asks m u fs) b peer' <-> request_sendable m u fs /\ peer' = map lower_field (hi_to_vec t)).
Proof.
  intros room max dyn id fl m u pr fs t b peer' h R TT T E P F. rewrite <- (C120_request m u pr fs). apply (told_exactly room max dyn id _ fl t b peer' (asks m u fs)); assumption.
Qed.
Print Assumptions C120_request_wire.
(** Responses, which have only a status and fields. *)
Theorem C120_response : forall code fs, 100 <= code <= 999 -> (answers code fs (map lower_field (response_behind code fs)) <-> response_sendable code fs).
Proof. intros code fs C. rewrite (response_exactly code fs C). unfold response_sendable. tauto. Qed.
Print Assumptions C120_response.
Theorem C120_response_wire : forall room max dyn id fl code fs t b peer', let h := mkHeaders id None (response_behind code fs) parts_default fl in
  100 <= code <= 999 -> room < 16777216 -> table_typed max dyn -> frame_typed (FHeaders h) -> frame_encode room (table_of max dyn) (FHeaders h) = Ok (t, b) ->
  frame_plain (FHeaders h) b -> frame_fine room max dyn (FHeaders h) ->
  (told room max (map lower_field dyn) id (flag_on fl 0) (answers code fs) b peer' <-> response_sendable code fs /\ peer' = map lower_field (hi_to_vec t)).
Proof.
  intros room max dyn id fl code fs t b peer' h C R TT T E P F. rewrite <- (C120_response code fs C).
  apply (told_exactly room max dyn id _ fl t b peer' (answers code fs)); assumption.
Qed.
Print Assumptions C120_response_wire.
(** The octets say one thing only: what is told on the wire is one list, and the end of the stream or not. *)
Theorem C120_unique : forall room max peer id F l fl fl' b p1 p2, room < 16777216 ->
  conforms room max peer (FHeaders (mkHeaders id None F parts_default fl)) b p1 ->
  conforms room max peer (FHeaders (mkHeaders id None l parts_default fl')) b p2 ->
  map lower_field F = map lower_field l /\ p1 = p2 /\ (flag_on fl 0 <-> flag_on fl' 0).
Proof. exact told_once. Qed.
Print Assumptions C120_unique.

(** ** Refuted *)
(** That the URL arrives: a query, another port, a user. *)
Theorem C120_url_refuted : forall m u pr fs, u_query u <> None \/ u_user u <> None \/ u_pass u <> None \/ u_port u <> Some (scheme_port (u_scheme u)) ->
  ~ asks m u fs (map lower_field (request_behind m u pr fs)).
Proof. intros m u pr fs H A. apply C120_request in A. destruct A as (_ & _ & _ & A1 & A2 & A3 & A4 & _). tauto. Qed.
Print Assumptions C120_url_refuted.
(** That a request of the builder can be sent: with url() it has a field Host with the port, but :authority has none, and
    RFC 9113 8.3.1 forbids that they differ. *)
Theorem C120_host_refuted : forall m u pr fs c, url_connect u = Some c -> In (str "Host", c) fs -> ~ asks m u fs (map lower_field (request_behind m u pr fs)).
Proof.
  intros m u pr fs c U I A. apply C120_request in A. destruct A as (_ & _ & _ & _ & _ & _ & _ & (d & D & _ & _ & S) & _).
  unfold url_connect in U. rewrite D in U. destruct (u_port u) as [n|]; [|discriminate U]. injection U as <-.
  rewrite Forall_forall in S. specialize (S (lower_field (str "Host", d ++ 58 :: dec_print n))). specialize (S (in_map _ _ _ I) eq_refl). cbn [lower_field snd] in S.
  apply (f_equal (@length N)) in S. rewrite app_length in S. cbn [length] in S. lia.
Qed.
Print Assumptions C120_host_refuted.
(** That the fields which only HTTP/1 has are left out. *)
Theorem C120_connection_refuted : forall m u pr fs n v, In (n, v) fs -> In (fst (lower_field (n, v))) connection_names ->
  ~ asks m u fs (map lower_field (request_behind m u pr fs)).
Proof.
  intros m u pr fs n v I C A. apply C120_request in A. destruct A as (_ & _ & _ & _ & _ & _ & _ & _ & _ & _ & F & _).
  rewrite Forall_forall in F. destruct (F _ (in_map _ _ _ I)) as (_ & _ & N & _). exact (N C).
Qed.
Print Assumptions C120_connection_refuted.
(** That a CONNECT is ever sent as 8.5 wants it. *)
Theorem C120_connect_refuted : forall u pr fs, ~ asks_connect u fs (map lower_field (request_behind MConnect u pr fs)).
Proof. exact connect_never. Qed.
Print Assumptions C120_connect_refuted.
(** That the fields of a request can be given to encode_header: the pseudo header fields then come last. *)
Theorem C120_onto_refuted : forall m u pr (f : bytes * bytes) (fs : headers), hd_error (fst f) <> Some 58 -> malformed (map lower_field (request_onto m u pr (f :: fs))).
Proof. exact onto_malformed. Qed.
Print Assumptions C120_onto_refuted.
Theorem C120_response_onto_refuted : forall code (f : bytes * bytes) (fs : headers) c hs, hd_error (fst f) <> Some 58 ->
  ~ response_list c hs (map lower_field (response_onto code (f :: fs))).
Proof. exact response_onto_bad. Qed.
Print Assumptions C120_response_onto_refuted.
(** That a field cannot take the place of a pseudo header field: ':' and 'Z' compare equal, so that the field "Zpath" gives
    the request another path, and "Zauthority" another host. *)
Theorem C120_name_refuted : forall m u pr d p a, u_scheme u <> ScNone -> u_domain u = Some d -> u_path u <> [] ->
  request_behind m u pr [(str "Zpath", p); (str "Zauthority", a)] =
  [(str ":method", method_str m); (str ":authority", a); (str ":scheme", scheme_str (u_scheme u)); (str ":path", p)].
Proof. intros m u pr d p a S D P. unfold request_behind. rewrite (four_made m u pr d S D P). reflexivity. Qed.
Print Assumptions C120_name_refuted.
(** A request of HTTP/1 that is passed on, all in one: the path of the HTTP/2 request is "/admin" and the query is lost. *)
Example C120_passed_on : exists q n, req_parse req_default (str "GET /a?b=c HTTP/1.1" ++ CRLF ++ str "Host: h" ++ CRLF ++ str "Zpath: /admin" ++ CRLF ++ CRLF) = (q, Ok n) /\
  map lower_field (request_behind (q_method q) (q_url q) (Some ScHttp) (q_header q)) =
  [(str ":method", str "GET"); (str ":authority", str "h"); (str ":scheme", str "http"); (str ":path", str "/admin"); (str "host", str "h")].
Proof. do 2 eexists. split; vm_compute; reflexivity. Qed.

(** ** Non-vacuity *)
Definition c120_url : url := mkUrl ScHttps (str "/a") None None (Some (str "h")) (Some 443) None.
Definition c120_fields : list hfield := [(str "Host", str "h"); (str "X-y", str "b")].
Lemma c120_field n v : lower_token n -> Forall vchar v -> ~ In n connection_names -> n <> str "te" -> h2_field (n, v).
Proof. intros T V C E. split; [exact T|]. split; [apply vchar_value, V|]. split; [exact C|]. intros K. destruct (E K). Qed.
Example C120_request_met : request_sendable MGet c120_url c120_fields.
Proof.
  assert (F : Forall h2_field (map lower_field c120_fields)).
  { change (map lower_field c120_fields) with [([104; 111; 115; 116], [104]); ([120; 45; 121], [98])].
    repeat apply Forall_cons; [..|apply Forall_nil]; apply c120_field; try (vm_compute; intuition discriminate).
    all: try (split; [discriminate|]).
    all: repeat (apply Forall_cons; [unfold vchar, tchar, alpha, lower, upper; cbn; lia|]); apply Forall_nil. }
  unfold request_sendable. split; [apply name_okb_ok; reflexivity|]. split; [discriminate|]. split; [cbn; auto|]. do 4 (split; [reflexivity|]). split.
  { exists (str "h"). split; [reflexivity|]. split; [discriminate|]. split.
    - split; [left; change (reg_name [104]); apply S_Rfc9112.pt_char; [unfold unreserved, sub_delim, alpha, lower, upper, digit; cbn; lia|apply S_Rfc9112.pt_nil]|cbn; lia].
    - repeat apply Forall_cons; [intros _; reflexivity|intros K; discriminate K|apply Forall_nil]. }
  split; [reflexivity|]. split; [|split; [exact F|]].
  { change (u_path c120_url) with [47; 97]. repeat apply Forall_cons; [right; reflexivity|left; unfold pchar, unreserved, sub_delim, alpha, lower, upper, digit; cbn; lia|apply Forall_nil]. }
  cbn [map app c120_fields distinct_names]. repeat match goal with |- _ /\ _ => split end; repeat apply Forall_cons; try apply Forall_nil; try exact Logic.I; vm_compute; reflexivity.
Qed.
Definition c120_frame : headersf := mkHeaders 1 None (request_behind MGet c120_url None c120_fields) parts_default 1.
Example C120_request_wire_met : exists t b, frame_encode 16384 (table_of 4096 []) (FHeaders c120_frame) = Ok (t, b) /\
  told 16384 4096 [] 1 True (asks MGet c120_url c120_fields) b (map lower_field (hi_to_vec t)).
Proof.
  assert (TT : table_typed 4096 []) by (split; [apply N.le_0_l|constructor]).
  assert (T : frame_typed (FHeaders c120_frame)).
  { split; [reflexivity|]. repeat constructor; cbn; unfold byte_ok; lia. }
  destruct (frame_encode 16384 (table_of 4096 []) (FHeaders c120_frame)) as [[t b]| | |] eqn:E; [|vm_compute in E; discriminate E..].
  exists t, b. split; [reflexivity|].
  assert (B : blen b = 33 /\ nth 4 b 0 = 5) by (vm_compute in E; injection E as _ <-; split; reflexivity). destruct B as [B B4].
  assert (P : frame_plain (FHeaders c120_frame) b).
  { split; [apply sendableb_ok; reflexivity|]. split; [discriminate|]. split; [discriminate|]. rewrite B. reflexivity. }
  assert (FF : frame_fine 16384 4096 [] (FHeaders c120_frame)).
  { pose proof E as E'. apply (frame_all 16384 4096 [] _ _ _ TT T) in E'. destruct E' as (d' & _ & W). inversion W as [|h cs d0 PC Q Eb| | | | | | |]; subst.
    assert (L : exists c, cs = [c] /\ blen c = 24).
    { destruct cs as [|c [|y r]]; [discriminate B| |discriminate B4].
      exists c. split; [reflexivity|]. unfold block_framed, framed in B. rewrite blen_app in B.
      assert (H9 : blen (header_octets (blen c mod 16777216) 1 (end_headers (hf_flags c120_frame)) (hf_id c120_frame)) = 9) by reflexivity.
      rewrite H9 in B. lia. }
    destruct L as (c & -> & L). econstructor; [cbn; lia|reflexivity|reflexivity| |exact PC|constructor; [lia|constructor]|reflexivity].
    apply tokens_fine; [apply T|exact TT| |].
    - intros f Hf. cbn in Hf. repeat (destruct Hf as [<-|Hf]; [discriminate|]). destruct Hf.
    - intros f g Hf Hg A. cbn in Hf, Hg.
      destruct Hf as [<-|[<-|[<-|[<-|[<-|[<-|[]]]]]]]; destruct Hg as [<-|[<-|[<-|[<-|[<-|[<-|[]]]]]]]; try reflexivity;
        (match type of A with alike ?x ?y => pose proof (proj2 (alike_iff x y (bytes_okb_ok x eq_refl) (bytes_okb_ok y eq_refl)) A) as Z end; vm_compute in Z; discriminate Z). }
  pose proof (C120_request_wire 16384 4096 [] 1 1 MGet c120_url None c120_fields t b (map lower_field (hi_to_vec t)) eq_refl TT T E P FF) as [_ K].
  destruct K as (l & fl & K1 & K2); [split; [exact C120_request_met|reflexivity]|]. exists l, fl. split; [|exact K2]. rewrite K1. split; [auto|reflexivity].
Qed.
Example C120_response_met : response_sendable 204 c120_fields.
Proof.
  split; [lia|]. split; [apply C120_request_met|]. cbn [c120_fields distinct_names].
  repeat match goal with |- _ /\ _ => split end; repeat apply Forall_cons; try apply Forall_nil; try exact Logic.I; vm_compute; reflexivity.
Qed.
