(** Theorems on HEADERS, CONTINUATION and PUSH_PROMISE frames and on HTTP/2 messages: C40, C42, C43, C55, C64-C67. *)
From Coq Require Import Ascii String NArith ZArith Lia Bool List ZifyBool ZifyNat ZifyN.
From Verif Require Import Base P_Base S_Utf8 M_Std M_Helper M_Header M_Url M_Http1 S_Http1 S_Http1Api S_Map S_Url M_Huffman M_Hpack S_Huffman S_Hpack S_HpackApi S_Near P_Near
  M_Frame M_H2 S_Frame S_H2Api S_H2Msg P_Frame P_H2 P_H2Msg P_H2Req P_H2All P_H2Push P_Settings P_Tight P_Msg P_UrlForm S_UrlAll P_UrlAll P_Huffman P_Hpack P_HpackTable P_HpackSync.
Import ListNotations.
Local Open Scope N_scope.

(** A connection that has exchanged nothing yet, and one that has. *)
Definition sample_fields : list hfield := [(str "x-a", str "1"); (str "cookie", str "k=v; l=w")].
Definition get_root : list hfield := request_fields MGet (str "example.com") ScHttps (str "/a/b") sample_fields.
Lemma fresh_connection fs : forallb sendableb fs = true -> forallb (fun f : hfield => forallb h2_charb (fst f)) fs = true ->
  (length fs <= 66)%nat -> connection hi_new hi_new fs.
Proof.
  intros A B C. exists 4096, [], []. split; [reflexivity|]. cbn [sent concat app].
  split; [apply sendableb_ok, A|]. split; [apply h2_charb_ok, B|].
  apply few_near; cbn [sent concat]; rewrite app_nil_r; [apply h2_pool; [apply sendableb_ok, A|apply h2_charb_ok, B]|exact C].
Qed.
Example connection_fresh : connection hi_new hi_new get_root.
Proof. apply fresh_connection; [vm_compute; reflexivity..|cbn; lia]. Qed.
Example connection_used : exists te td, connection te td get_root /\ hi_table te <> [].
Proof.
  destruct (exchange hi_new hi_new [EvBlock get_root; EvMax 200; EvBlock sample_fields]) as [[[te td] g]| | |] eqn:E; [|vm_compute in E; discriminate E..].
  exists te, td. split; [|vm_compute in E; injection E as <- _ _; discriminate].
  exists 4096, [EvBlock get_root; EvMax 200; EvBlock sample_fields], g. split; [exact E|].
  split; [apply sendableb_ok; vm_compute; reflexivity|]. split; [apply h2_charb_ok; vm_compute; reflexivity|].
  apply few_near; [apply h2_pool; [apply sendableb_ok; vm_compute; reflexivity|apply h2_charb_ok; vm_compute; reflexivity]|cbn; lia].
Qed.

(** C40. What is written for a header block: a HEADERS frame and CONTINUATION frames on the same stream, the
    flags with END_HEADERS on the last one only, and the concatenation of their payloads is decoded to the
    fields.  Missing for the full property: END_STREAM is to be on the HEADERS frame; with CONTINUATION
    frames it is on the last of those ([block_octets]). *)
Theorem C40_split_partial : forall max te td h es eh pad pri,
  connection te td (hf_fields h) -> hf_id h < 4294967296 -> 4 * total_size (hf_fields h) < 16777216 ->
  hf_flags h = flags_of es eh pad pri ->
  exists te' td' c cs, headers_encode max te h = Ok (te', block_octets (flags_of es true pad pri) (hf_id h) c cs) /\
    decode_headers td (concat (c :: cs)) = (td', Ok (hf_fields h)).
Proof.
  intros max te td h es eh pad pri C I T F. destruct (connection_sync _ _ _ C) as (te' & td' & b & E & D).
  pose proof (connection_len _ _ _ _ _ C E) as L. destruct (headers_encode_spec max te h te' b E I) as (c & cs & H & B); [lia|].
  exists te', td', c, cs. rewrite H, B, F. split; [|exact D]. rewrite (proj1 (proj2 (proj2 (proj2 (proj2 (proj2 (flags_of_view es eh pad pri))))))). reflexivity.
Qed.
Print Assumptions C40_split_partial.
(** One frame when everything fits. *)
Theorem C40_one_frame : forall max te td h es eh pad pri,
  connection te td (hf_fields h) -> hf_id h < 4294967296 -> 4 * total_size (hf_fields h) < 16777216 ->
  hf_flags h = flags_of es eh pad pri -> 5 * total_size (hf_fields h) <= max ->
  exists te' td' b, headers_encode max te h = Ok (te', frame_octets 1 (flags_of es true pad pri) (hf_id h) b) /\
    decode_headers td b = (td', Ok (hf_fields h)).
Proof.
  intros max te td h es eh pad pri C I T F M. destruct (connection_sync _ _ _ C) as (te' & td' & b & E & D).
  pose proof (connection_len _ _ _ _ _ C E) as L. exists te', td', b. split; [|exact D].
  rewrite (headers_single max te h te' b E I) by lia. rewrite F.
  rewrite (proj1 (proj2 (proj2 (proj2 (proj2 (proj2 (flags_of_view es eh pad pri))))))). reflexivity.
Qed.
Print Assumptions C40_one_frame.
Example C40_nonvacuous : exists te td, headers_encode 16 hi_new (mkHeaders 1 None get_root parts_default 1) = Ok (te, block_octets 5 1 [130]
    [[65; 136; 47; 145; 211; 93; 5; 92; 135; 167];
     [135; 64; 132; 185; 88; 211; 63; 131; 96; 108; 71; 64; 131; 242; 176; 255; 129; 15]; [96; 135; 235; 7; 127; 181; 40; 131; 199]]) /\
  decode_headers hi_new (concat [[130]; [65; 136; 47; 145; 211; 93; 5; 92; 135; 167];
     [135; 64; 132; 185; 88; 211; 63; 131; 96; 108; 71; 64; 131; 242; 176; 255; 129; 15]; [96; 135; 235; 7; 127; 181; 40; 131; 199]]) =
   (td, Ok get_root).
Proof. eexists. eexists. split; [vm_compute; reflexivity|]. vm_compute. reflexivity. Qed.
(** Refuted: END_STREAM is asked for and is not on the HEADERS frame of a request that is split. *)
Theorem C40_end_stream_refuted : exists te c cs, is_end_stream 1 = true /\
  headers_encode 16 hi_new (mkHeaders 1 None get_root parts_default 1) = Ok (te, frame_octets 1 0 1 c ++ cs) /\ is_end_stream 0 = false.
Proof.
  destruct C40_nonvacuous as (te & td & E & _). exists te, [130].
  eexists. split; [reflexivity|]. split; [exact E|]. reflexivity.
Qed.
Print Assumptions C40_end_stream_refuted.
(** Refuted: the library's own receiver refuses every CONTINUATION frame. *)
Theorem C40_continuation_refuted : forall t L f id p rest, blen p < 16777216 -> id < 2147483648 -> defined_flags f -> is_padded f = false ->
  recv t L (frame_octets 9 f id p ++ rest) = (t, Err (EExtension "")).
Proof.
  intros t L f id p rest B I D P. rewrite P_Ctl.recv_octets by assumption. unfold frame_parse. rewrite P_Ctl.trim_unpadded by exact P. reflexivity.
Qed.
Print Assumptions C40_continuation_refuted.

(** C42. Which received frames make Frame::parse panic or loop, for every decoder, header and payload:
    it panics for DATA on stream 0 and loops for HEADERS whose block the HPACK decoder loops on (C62), and it
    returns a frame or an error otherwise.  The full property has no such exceptions. *)
Theorem C42_panic_partial : forall t h l L, decoder_reach t -> bytes_ok l ->
  (snd (frame_parse t h l L) = Panic <->
   fh_kind h = KData /\ fh_id h = 0 /\ forall p r, l = p :: r -> is_padded (fh_flag h) = true -> p <= fh_length h).
Proof. intros t h l L R B. apply frame_panic_iff; [exact (reach_inv _ R)|exact B]. Qed.
Print Assumptions C42_panic_partial.
Theorem C42_diverge_partial : forall t h l L, bytes_ok l ->
  (snd (frame_parse t h l L) = Diverge <->
   fh_kind h = KHeaders /\ exists pad prio block, l = pad ++ prio ++ block /\
     length pad = (if is_padded (fh_flag h) then 1%nat else 0%nat) /\ Forall (fun p => p <= fh_length h) pad /\
     length prio = (if is_priority (fh_flag h) then 5%nat else 0%nat) /\ snd (decode_headers t block) = Diverge).
Proof. intros t h l L B. apply frame_diverge_iff. exact B. Qed.
Print Assumptions C42_diverge_partial.
(** Whatever has been received, the decoder is one the above speaks of. *)
Theorem C42_history : forall t L l, decoder_reach t -> decoder_reach (fst (recv t L l)).
Proof. intros t L l. apply recv_reach. Qed.
Print Assumptions C42_history.
Theorem C42_refuted : (exists l, bytes_ok l /\ snd (recv hi_new 4096 l) = Panic) /\ (exists l, bytes_ok l /\ snd (recv hi_new 4096 l) = Diverge).
Proof.
  split.
  - exists (frame_octets 0 0 0 [1]). split; [repeat constructor|]. vm_compute. reflexivity.
  - exists (frame_octets 1 4 1 [32]). split; [repeat constructor|]. vm_compute. reflexivity.
Qed.
Print Assumptions C42_refuted.
Example C42_nonvacuous : decoder_reach hi_new /\ bytes_ok [5; 1] /\
  snd (frame_parse hi_new (mkFH 2 KData 8 0) [5; 1] 4096) <> Panic /\ snd (frame_parse hi_new (mkFH 2 KData 0 0) [5; 1] 4096) = Panic /\
  snd (frame_parse hi_new (mkFH 1 KHeaders 4 1) [130] 4096) <> Diverge /\ snd (frame_parse hi_new (mkFH 2 KHeaders 4 1) [130; 33] 4096) = Diverge.
Proof.
  split; [exact (dr_new 4096)|]. split; [repeat constructor|]. repeat match goal with |- _ /\ _ => split end; vm_compute; try reflexivity; discriminate.
Qed.

(** C43. What Headers::parse accepts, for every decoder, payload and limit: the header lists that the HPACK
    decoder yields, whose size is within the limit and whose pseudo fields can be read. *)
Theorem C43_limit : forall t h l L, is_priority (hf_flags h) = false ->
  ((exists t' hf n, headers_parse t h l L = (t', hf, Ok n)) <->
   exists t' fs, decode_headers t l = (t', Ok fs) /\ total_size fs <= L /\ Forall pseudo_ok fs).
Proof. intros t h l L. apply headers_parse_iff. Qed.
Print Assumptions C43_limit.
Theorem C43_limit_priority : forall t h l L, is_priority (hf_flags h) = true ->
  ((exists t' hf n, headers_parse t h l L = (t', hf, Ok n)) <->
   exists pre block t' fs, l = pre ++ block /\ length pre = 5%nat /\
     decode_headers t block = (t', Ok fs) /\ total_size fs <= L /\ Forall pseudo_ok fs).
Proof. intros t h l L. apply headers_parse_prio. Qed.
Print Assumptions C43_limit_priority.
Example C43_nonvacuous : exists b, snd (decode_headers hi_new b) = Ok get_root /\ total_size get_root = 262 /\
  (exists f, snd (recv hi_new 262 (frame_octets 1 4 1 b)) = Ok (f, [])) /\ (exists e, snd (recv hi_new 261 (frame_octets 1 4 1 b)) = Err e).
Proof.
  exists ([130; 65; 136; 47; 145; 211; 93; 5; 92; 135; 167; 135; 64; 132; 185; 88; 211; 63; 131; 96; 108; 71; 64; 131; 242; 176; 255; 129; 15; 96; 135; 235; 7; 127; 181; 40; 131; 199]).
  split; [vm_compute; reflexivity|]. split; [vm_compute; reflexivity|]. split; eexists; vm_compute; reflexivity.
Qed.

(** C64. A request or response in one HEADERS frame: what the peer receives. *)
Lemma exchange_block te td fs te' td' b : encode_headers te fs = Ok (te', b) -> decode_headers td b = (td', Ok fs) ->
  exchange te td [EvBlock fs] = Ok (te', td', [fs]).
Proof. intros E D. cbn [exchange]. rewrite E. cbn [bind]. rewrite D. cbn [bind]. reflexivity. Qed.
Lemma message_frame te td fs id es eh max L P h' rest : connection te td fs -> id < 2147483648 -> total_size fs <= L ->
  5 * total_size fs <= max -> max < 16777216 ->
  hdr_all (mkHeaders id None [] parts_default (flags_of es true false false)) fs = Ok h' ->
  exists te' td' out, exchange te td [EvBlock fs] = Ok (te', td', [fs]) /\
    headers_encode max te (mkHeaders id None fs P (flags_of es eh false false)) = Ok (te', out) /\
    recv td L (out ++ rest) = (td', Ok (FHeaders h', rest)).
Proof.
  intros C I T M X H. destruct (message_sync te td fs id es eh max L P h' rest C I T H) as (te' & td' & b & E & D & K).
  pose proof (connection_len _ _ _ _ _ C E) as B. destruct K as [K1 K2]; [lia..|]. exists te', td'. eexists.
  split; [exact (exchange_block _ _ _ _ _ _ E D)|]. split; [exact K1|exact K2].
Qed.
Theorem C64_request : forall te td m a s p fs id es eh max L P rest,
  In m known_methods -> legal_scheme s -> is_utf8 a -> is_utf8 p -> regular fs ->
  connection te td (request_fields m a s p fs) -> id < 2147483648 ->
  total_size (request_fields m a s p fs) <= L -> 5 * total_size (request_fields m a s p fs) <= max -> max < 16777216 ->
  exists te' td' out, exchange te td [EvBlock (request_fields m a s p fs)] = Ok (te', td', [request_fields m a s p fs]) /\
    headers_encode max te (mkHeaders id None (request_fields m a s p fs) P (flags_of es eh false false)) = Ok (te', out) /\
    recv td L (out ++ rest) =
    (td', Ok (FHeaders (mkHeaders id None fs (mkParts (Some m) (Some s) (Some a) (Some p) None) (flags_of es true false false)), rest)).
Proof.
  intros te td m a s p fs id es eh max L P rest M S A U R C I T X Y. apply message_frame; [assumption..|].
  apply request_collect; assumption.
Qed.
Print Assumptions C64_request.
Theorem C64_response : forall te td c fs id es eh max L P rest, 100 <= c <= 999 -> regular fs ->
  connection te td (response_fields c fs) -> id < 2147483648 ->
  total_size (response_fields c fs) <= L -> 5 * total_size (response_fields c fs) <= max -> max < 16777216 ->
  exists te' td' out, exchange te td [EvBlock (response_fields c fs)] = Ok (te', td', [response_fields c fs]) /\
    headers_encode max te (mkHeaders id None (response_fields c fs) P (flags_of es eh false false)) = Ok (te', out) /\
    recv td L (out ++ rest) =
    (td', Ok (FHeaders (mkHeaders id None fs (mkParts None None None None (Some c)) (flags_of es true false false)), rest)).
Proof.
  intros te td c fs id es eh max L P rest M R C I T X Y. apply message_frame; [assumption..|].
  apply response_collect; assumption.
Qed.
Print Assumptions C64_response.
(** Refuted: the parts of the frame are not written, so a request whose pseudo fields are only there is sent without them. *)
Theorem C64_parts_refuted : forall max t id d fs P Q fl, headers_encode max t (mkHeaders id d fs P fl) = headers_encode max t (mkHeaders id d fs Q fl).
Proof. reflexivity. Qed.
Print Assumptions C64_parts_refuted.
(** Refuted: of fields with the same name only the last is delivered. *)
Definition two_cookies : list hfield := get_root ++ [(str "cookie", str "m=x")].
Theorem C64_repeated_refuted : exists te td out h, headers_encode 16384 hi_new (mkHeaders 1 None two_cookies parts_default 4) = Ok (te, out) /\
  recv hi_new 4096 out = (td, Ok (FHeaders h, [])) /\ hf_fields h = [(str "x-a", str "1"); (str "cookie", str "m=x")].
Proof.
  do 4 eexists. split; [vm_compute; reflexivity|]. split; [vm_compute; reflexivity|]. vm_compute. reflexivity.
Qed.
Print Assumptions C64_repeated_refuted.
Example C64_nonvacuous : In MGet known_methods /\ legal_scheme ScHttps /\ is_utf8 (str "example.com") /\ is_utf8 (str "/a/b") /\
  regular sample_fields /\ connection hi_new hi_new get_root /\ 5 * total_size get_root <= 16384.
Proof.
  split; [cbn; auto|]. split; [constructor|]. split; [apply utf8_valid_iff; vm_compute; reflexivity|]. split; [apply utf8_valid_iff; vm_compute; reflexivity|].
  split; [|split; [exact connection_fresh|vm_compute; discriminate]].
  split; [apply h2_charb_ok; vm_compute; reflexivity|]. split; [|repeat constructor; discriminate].
  cbn [map fst sample_fields]. repeat constructor; cbn [In]; intros K; repeat destruct K as [K|K]; try discriminate K; exact K.
Qed.

(** C55. Receiving side: the method and the URL of the request are those that the pseudo fields spell. *)
Theorem C55_receive : forall h q m a s p u d n,
  hf_parts h = mkParts (Some m) (Some s) (Some a) (Some p) None ->
  bytes_ok (scheme_str s ++ str "://" ++ a ++ p) ->
  url_means (scheme_str s ++ str "://" ++ a ++ p) u -> u_domain u = Some d -> u_port u = Some n ->
  regular (hf_fields h) -> ~ In (str "host") (map fst (hf_fields h)) -> q_header q = [] ->
  headers_into_request h q = Ok (mkReq m (q_version q) u ((str "Host", d ++ 58 :: dec_print n) :: hf_fields h) (q_partial q)).
Proof.
  intros h q m a s p u d n HP B F D N R H Q.
  apply (into_request_spec h q m a s p (hf_fields h)); try assumption; try reflexivity. apply url_means_iff; auto.
Qed.
Print Assumptions C55_receive.
(** A text that is not a URL is refused. *)
Theorem C55_receive_error : forall h q m a s p,
  hf_parts h = mkParts (Some m) (Some s) (Some a) (Some p) None ->
  bytes_ok (scheme_str s ++ str "://" ++ a ++ p) ->
  (forall u, ~ url_means (scheme_str s ++ str "://" ++ a ++ p) u) ->
  forall q', headers_into_request h q <> Ok q'.
Proof.
  intros h q m a s p HP B F q' E. unfold headers_into_request, parts_build_url in E. rewrite HP in E. cbn [pt_authority pt_scheme pt_path] in E.
  destruct (url_parse _) as [u| | |] eqn:U in E; try discriminate E. apply (F u). apply url_means_iff; auto.
Qed.
Print Assumptions C55_receive_error.
(** With :scheme, :path or :method missing: http, "/" and the method that the builder had.  Without :authority: an error. *)
Theorem C55_receive_defaults : forall h q mo so a po st u d n, hf_parts h = mkParts mo so (Some a) po st ->
  let text := given (option_map scheme_str so) (str "http") ++ str "://" ++ a ++ given po (str "/") in
  bytes_ok text -> url_means text u -> u_domain u = Some d -> u_port u = Some n ->
  regular (hf_fields h) -> ~ In (str "host") (map fst (hf_fields h)) -> q_header q = [] ->
  headers_into_request h q = Ok (mkReq (given mo (q_method q)) (q_version q) u ((str "Host", d ++ 58 :: dec_print n) :: hf_fields h) (q_partial q)).
Proof.
  intros h q mo so a po st u d n P text B F D N R H Q. apply (into_request_given h q mo so a po st u d n); try assumption. apply url_means_iff; auto.
Qed.
Print Assumptions C55_receive_defaults.
Theorem C55_no_authority : forall h q, pt_authority (hf_parts h) = None -> headers_into_request h q = Err (EHttp2 InvalidRequesetUrl).
Proof. exact into_request_no_authority. Qed.
Print Assumptions C55_no_authority.
Example C55_defaults_nonvacuous : exists u, url_means (str "http" ++ str "://" ++ str "me:pw@a.b" ++ str "/") u /\ u_domain u = Some (str "a.b") /\ u_port u = Some 80.
Proof.
  destruct (url_parse (str "http" ++ str "://" ++ str "me:pw@a.b" ++ str "/")) as [u| | |] eqn:E; [|discriminate E..]. exists u.
  split; [apply url_means_iff; [apply bytes_okb_ok; reflexivity|exact E]|vm_compute in E; injection E as <-; split; reflexivity].
Qed.
(** A response: the status and the fields. *)
Theorem C55_receive_response : forall h p c, hf_parts h = mkParts None None None None (Some c) -> regular (hf_fields h) -> p_header p = [] ->
  headers_into_response h p = mkResp c (p_version p) (hf_fields h) (p_partial p).
Proof. intros h p c P R H. apply into_response_spec; auto. Qed.
Print Assumptions C55_receive_response.
(** From one end to the other: Parts::request, the fields of the request behind them, HEADERS frame, receive,
    into_request.  Missing for the full property: URLs with a query, another port or a user (refuted below),
    or with '%' in the path. *)
Theorem C55_end_to_end_partial : forall te td m u fs id es eh max L rest F,
  In m known_methods -> plain_url u -> regular fs -> ~ In (str "host") (map fst fs) ->
  F = hm_insert_all (parts_encode_header (parts_request m u None) []) fs ->
  connection te td F -> id < 2147483648 -> total_size F <= L -> 5 * total_size F <= max -> max < 16777216 ->
  exists te' td' out hf q, headers_encode max te (mkHeaders id None F parts_default (flags_of es eh false false)) = Ok (te', out) /\
    recv td L (out ++ rest) = (td', Ok (FHeaders hf, rest)) /\ hf_id hf = id /\
    headers_into_request hf req_default = Ok q /\ q_method q = m /\ q_url q = u /\
    (exists host, q_header q = (str "Host", host) :: fs).
Proof.
  intros te td m u fs id es eh max L rest F M (LS & (d & D & HC) & PP & (n & PN & DP) & UU & UP & UQ) R H EF C I T X Y.
  destruct (plain_path_part _ PP) as (PA & NE & PU).
  assert (NS : u_scheme u <> ScNone) by (intros K; rewrite K in LS; inversion LS).
  rewrite (parts_fields m u (u_scheme u) d (u_path u) eq_refl D eq_refl NS NE) in EF. rewrite insert_request in EF by exact R. subst F.
  assert (DU : is_utf8 d). { apply utf8_valid_iff, utf8_valid_ascii. eapply Forall_impl; [|exact HC]. cbn. intros b [[V _] _]. unfold vchar in V. lia. }
  destruct (C64_request te td m d (u_scheme u) (u_path u) fs id es eh max L parts_default rest) as (te' & td' & out & _ & E & K); try assumption.
  exists te', td', out. eexists. eexists. split; [exact E|]. split; [exact K|]. split; [reflexivity|].
  split; [|split; [|split; [|]]].
  - apply (into_request_spec _ _ m d (u_scheme u) (u_path u) fs u d n); try reflexivity; try assumption.
    rewrite <- (app_nil_r (u_path u)) at 1.
    rewrite (url_default_port (u_scheme u) d (u_path u) (u_path u) [] None n LS HC PA); [|constructor|congruence|exact DP].
    destruct u as [us up uu ua ud upo uq]; cbn [u_scheme u_domain u_path u_port u_user u_pass u_query] in *. subst. reflexivity.
  - reflexivity.
  - reflexivity.
  - eexists. reflexivity.
Qed.
Print Assumptions C55_end_to_end_partial.
(** Refuted: the user, password, port and query of the URL are not in the pseudo fields. *)
Theorem C55_dropped_refuted : forall m pr s p d us pw n q us' pw' n' q',
  parts_request m (mkUrl s p us pw d n q) pr = parts_request m (mkUrl s p us' pw' d n' q') pr.
Proof. reflexivity. Qed.
Print Assumptions C55_dropped_refuted.
Theorem C55_query_refuted : exists u u', url_parse (str "http://example.com:8080/a?b=c") = Ok u /\
  parts_build_url (parts_request MGet u None) = Ok u' /\ u_port u = Some 8080 /\ u_port u' = Some 80 /\ u_query u = Some (str "b=c") /\ u_query u' = None.
Proof.
  eexists. eexists. split; [vm_compute; reflexivity|]. split; [vm_compute; reflexivity|]. vm_compute. repeat split.
Qed.
Print Assumptions C55_query_refuted.
Example C55_nonvacuous : exists u, url_parse (str "https://example.com/a/b") = Ok u /\ plain_url u /\
  hm_insert_all (parts_encode_header (parts_request MGet u None) []) sample_fields = get_root.
Proof.
  eexists. split; [vm_compute; reflexivity|]. split; [|vm_compute; reflexivity].
  unfold plain_url. cbn [u_scheme u_domain u_path u_port u_user u_pass u_query].
  split; [constructor|]. split; [eexists; split; [reflexivity|]|].
  { apply (P_UrlForm.forallb_Forall_iff (fun b => P_UrlForm.partb b && negb (b =? 37))); [|vm_compute; reflexivity].
    intros b. unfold host_char. rewrite <- P_UrlForm.partb_ok, andb_true_iff, negb_true_iff, N.eqb_neq. tauto. }
  split; [split; [reflexivity|]; repeat constructor; unfold vchar; lia|].
  split; [exists 443; split; [reflexivity|left; cbn; auto]|]. auto.
Qed.

(** C65. Frame::stream_id, flags and the kind of a received frame are those of its header. *)
Theorem C65_kind : forall t h l L t' f, frame_parse t h l L = (t', Ok f) -> kind_of f = fh_kind h.
Proof. intros t h l L t' f. apply parse_kind. Qed.
Print Assumptions C65_kind.
(** Missing: PRIORITY and GOAWAY; flags of the other kinds. *)
Theorem C65_stream_id_partial : forall t h l L t' f, frame_parse t h l L = (t', Ok f) ->
  fh_kind h <> KPriority -> fh_kind h <> KGoAway -> frame_stream_id f = fh_id h.
Proof. intros t h l L t' f. apply parse_stream_id. Qed.
Print Assumptions C65_stream_id_partial.
Theorem C65_flags_partial : forall t h l L t' f, frame_parse t h l L = (t', Ok f) ->
  fh_kind h = KData \/ fh_kind h = KHeaders \/ fh_kind h = KPushPromise -> frame_flags f = fh_flag h.
Proof. intros t h l L t' f. apply parse_flags. Qed.
Print Assumptions C65_flags_partial.
(** is_data, is_header, is_end_stream and is_end_headers: END_STREAM is the lowest bit of the flags of DATA and HEADERS,
    END_HEADERS the third of HEADERS. *)
Theorem C65_predicates : forall t h l L t' f, frame_parse t h l L = (t', Ok f) ->
  frame_is_data f = kind_eqb (fh_kind h) KData /\ frame_is_header f = kind_eqb (fh_kind h) KHeaders /\
  frame_is_end_stream f = (kind_eqb (fh_kind h) KData || kind_eqb (fh_kind h) KHeaders) && N.testbit (fh_flag h) 0 /\
  frame_is_end_headers f = kind_eqb (fh_kind h) KHeaders && N.testbit (fh_flag h) 2.
Proof. exact parse_predicates. Qed.
Print Assumptions C65_predicates.
Theorem C65_priority_refuted : exists t h l L t' f, frame_parse t h l L = (t', Ok f) /\ fh_id h = 5 /\ frame_stream_id f = 0.
Proof.
  exists hi_new, (mkFH 5 KPriority 0 5), [0; 0; 0; 3; 10], 4096. eexists. eexists.
  split; [vm_compute; reflexivity|]. split; reflexivity.
Qed.
Print Assumptions C65_priority_refuted.
Theorem C65_ping_ack_refuted : exists t h l L t' f, frame_parse t h l L = (t', Ok f) /\ fh_flag h = ACK /\ frame_flags f = 0.
Proof.
  exists hi_new, (mkFH 8 KPing ACK 0), [1; 2; 3; 4; 5; 6; 7; 8], 4096. eexists. eexists.
  split; [vm_compute; reflexivity|]. split; reflexivity.
Qed.
Print Assumptions C65_ping_ack_refuted.
Example C65_nonvacuous : exists t' f, frame_parse hi_new (mkFH 2 KHeaders 5 7) [130; 132] 4096 = (t', Ok f) /\
  frame_stream_id f = 7 /\ frame_flags f = 5 /\ kind_of f = KHeaders.
Proof. eexists. eexists. split; [vm_compute; reflexivity|]. split; [|split]; reflexivity. Qed.

(** C66. No frame written for a header block is larger than max_frame_size.  Proved: none is larger than that
    plus four times the size of the largest field. *)
Theorem C66_frame_size_partial : forall max te td h k, connection te td (hf_fields h) -> Forall (fun f => size_of f <= k) (hf_fields h) ->
  hf_id h < 4294967296 -> 4 * total_size (hf_fields h) < 16777216 ->
  exists te' c cs, headers_encode max te h = Ok (te', block_octets (set_end_headers (hf_flags h)) (hf_id h) c cs) /\
    Forall (fun c => blen c <= max + 4 * k) (c :: cs).
Proof. intros max te td h k. apply frames_small. Qed.
Print Assumptions C66_frame_size_partial.
(** Refuted, for every limit from 5 on: a single field of [max] octets is written as one frame, and its Huffman code
    may take more than that. *)
Definition big_field (max : N) : hfield := (str "x", repeat 0 (N.to_nat (max - 1))).
Lemma zeros_coded b n : huff_coded b (repeat 0 n) -> (13 * n <= 8 * length b)%nat.
Proof.
  intros (p & _ & E). apply (f_equal (@length bool)) in E. rewrite text_bits_length, app_length, repeat_length in E.
  assert (L : length (flat_map huff_word (repeat 0 n)) = (13 * n)%nat).
  { clear E. induction n as [|n IH]; [reflexivity|]. cbn [repeat flat_map]. rewrite app_length, IH. change (length (huff_word 0)) with 13%nat. lia. }
  lia.
Qed.
Theorem C66_frame_size_refuted : forall max, 5 <= max <= 1048576 ->
  exists te c, headers_encode max hi_new (mkHeaders 1 None [big_field max] parts_default 4) = Ok (te, frame_octets 1 4 1 c) /\ max < blen c.
Proof.
  intros max M. set (v := repeat 0 (N.to_nat (max - 1))).
  assert (B : bytes_ok v) by (apply Forall_forall; intros x K; apply repeat_spec in K; subst x; reflexivity).
  assert (LV : blen v = max - 1) by (unfold blen, v; rewrite repeat_length; lia).
  destruct (huff_encode_coded v B) as (w & Ew & _ & Cw). pose proof (huff_coded_length w v B Cw) as Hi. pose proof (zeros_coded w _ Cw) as Lo.
  destruct (encode_string_lower (str "x")) as [bx| | |] eqn:Ex; try (vm_compute in Ex; discriminate Ex).
  assert (LX : blen bx = 2) by (vm_compute in Ex; injection Ex as <-; reflexivity).
  set (c := 64 :: bx ++ encode_integer (blen w) 7 128 ++ w).
  assert (Li : blen (encode_integer (blen w) 7 128) <= 10).
  { pose proof (encode_integer_length (blen w) 7 128 ltac:(lia)) as K. change (2 ^ 7 - 1 + 2 ^ 28) with 268435583 in K. specialize (K ltac:(lia)). unfold blen at 1. lia. }
  assert (E : encode_header hi_new (big_field max) = Ok (idx_of (hi_max hi_new) (rfc_add (hi_max hi_new) (hi_table hi_new) (big_field max)), c)).
  { unfold encode_header, big_field. fold v. change (find_header hi_new (str "x", v)) with (@None (N * bool)). cbv iota.
    unfold encode_literal, encode_string. cbn [fst snd]. rewrite Ex, Ew. cbn [bind].
    rewrite add_header_spec by (split; [reflexivity|vm_compute; discriminate]). reflexivity. }
  assert (LC : blen c = 3 + blen (encode_integer (blen w) 7 128) + blen w).
  { unfold c. rewrite blen_cons, !blen_app. lia. }
  eexists. exists c. split.
  - unfold headers_encode, block_encode. cbn [hf_fields hf_flags hf_id]. unfold block_chunks.
    assert (S : (max <? blen (fst (big_field max)) + blen (snd (big_field max)) + blen []) = false).
    { unfold big_field. cbn [fst snd]. fold v. rewrite LV. change (blen (str "x")) with 1. change (blen []) with 0. lia. }
    rewrite S, E. cbn [bind app block_frames]. change (set_end_headers 4) with 4. rewrite (P_Frame.fh_encode_octets) by (cbn; lia). reflexivity.
  - assert (13 * (max - 1) <= 8 * blen w) by (unfold blen; lia). lia.
Qed.
Print Assumptions C66_frame_size_refuted.
Example C66_nonvacuous : connection hi_new hi_new get_root /\ Forall (fun f => size_of f <= 53) get_root /\ 4 * total_size get_root < 16777216.
Proof.
  split; [exact connection_fresh|]. split; [|vm_compute; reflexivity].
  assert (E : forallb (fun f => size_of f <=? 53) get_root = true) by (vm_compute; reflexivity).
  apply Forall_forall. intros f K. rewrite forallb_forall in E. apply N.leb_le, E, K.
Qed.

(** C67. PUSH_PROMISE.  What is written for a promised request: a PUSH_PROMISE frame with the promised stream and
    the pseudo fields, then the other fields in a header block on the promised stream; a decoder that reads the
    two blocks in this order gets the pseudo fields and the fields. *)
Theorem C67_wire_partial : forall te td max m a s p fs id promised es eh pad pri, regular fs ->
  connection te td (request_fields m a s p fs) -> id < 4294967296 -> promised < 4294967296 ->
  4 * total_size (request_fields m a s p fs) + 4 < 16777216 ->
  exists te' td' b c cs,
    push_encode max te (mkPush id promised fs (mkParts (Some m) (Some s) (Some a) (Some p) None) (flags_of es eh pad pri)) =
    Ok (te', frame_octets 5 (flags_of es true pad pri) id (octets4 promised ++ b) ++ block_octets (flags_of es true pad pri) promised c cs) /\
    decode_headers td (b ++ concat (c :: cs)) = (td', Ok (request_fields m a s p fs)).
Proof.
  intros te td max m a s p fs id promised es eh pad pri R C I J T.
  destruct (connection_sync _ _ _ C) as (te' & td' & x & E & D).
  pose proof (connection_len _ _ _ _ _ C E) as L. unfold request_fields in E. rewrite encode_headers_app in E.
  destruct (encode_headers te _) as [[t1 b1]| | |] eqn:E1 in E; try discriminate E. cbn [bind] in E.
  destruct (encode_headers t1 fs) as [[t2 b2]| | |] eqn:E2 in E; try discriminate E. cbn [bind] in E. injection E as <- <-.
  rewrite blen_app in L.
  destruct (push_encode_spec max te id promised fs m a s p (flags_of es eh pad pri) t1 b1 t2 b2 R E1 E2 I J) as (c & cs & K & B); [lia..|].
  exists t2, td', b1, c, cs. rewrite B. split; [|exact D].
  rewrite (proj1 (proj2 (proj2 (proj2 (proj2 (proj2 (flags_of_view es eh pad pri))))))) in K. exact K.
Qed.
Print Assumptions C67_wire_partial.
(** What is received: the two stream ids.  The header block is not read, whatever it is, so the promised
    request is lost (refuting the property that it arrives) ... *)
Theorem C67_received_partial : forall t L id promised f b rest, id < 2147483648 -> promised < 2147483648 ->
  4 + blen b < 16777216 -> defined_flags f -> is_padded f = false ->
  recv t L (frame_octets 5 f id (octets4 promised ++ b) ++ rest) = (t, Ok (FPushPromise (mkPush id promised [] parts_default f), rest)).
Proof.
  intros t L id promised f b rest I J B D P. rewrite P_Ctl.recv_octets; [|rewrite blen_app; change (blen (octets4 promised)) with 4; exact B|exact I|exact D].
  change (kind_new 5) with KPushPromise. unfold frame_parse. rewrite P_Ctl.trim_unpadded by exact P. cbn [fh_kind]. unfold push_parse, stream_parse.
  rewrite P_Frame.read_u31_octets by lia. rewrite N.mod_small by exact J. reflexivity.
Qed.
Print Assumptions C67_received_partial.
(** ... and the decoder table no longer agrees with the encoder's: a request, a promised request and a response
    with a field of the first request, in whose place the receiver finds another one. *)
Definition promised_fields : list hfield := [(str "x-b", str "2")].
Theorem C67_desync_refuted : exists te1 te2 te3 o1 o2 o3,
  headers_encode 16384 hi_new (mkHeaders 1 None get_root parts_default 5) = Ok (te1, o1) /\
  push_encode 16384 te1 (mkPush 1 2 promised_fields (mkParts (Some MGet) (Some ScHttps) (Some (str "example.com")) (Some (str "/x")) None) 4) = Ok (te2, o2) /\
  headers_encode 16384 te2 (mkHeaders 1 None (response_fields 200 sample_fields) parts_default 4) = Ok (te3, o3) /\
  exists td1 td2 td3 td4 h1 p h2 h3 r2, recv hi_new 4096 (o1 ++ o2 ++ o3) = (td1, Ok (FHeaders h1, o2 ++ o3)) /\
    recv td1 4096 (o2 ++ o3) = (td2, Ok (FPushPromise p, r2)) /\ recv td2 4096 r2 = (td3, Ok (FHeaders h2, o3)) /\
    recv td3 4096 o3 = (td4, Ok (FHeaders h3, [])) /\ pt_authority (hf_parts h3) = Some (str "example.com") /\
    ~ In (str "x-a") (map fst (hf_fields h3)).
Proof.
  do 6 eexists. split; [vm_compute; reflexivity|]. split; [vm_compute; reflexivity|]. split; [vm_compute; reflexivity|].
  do 9 eexists. split; [vm_compute; reflexivity|]. split; [vm_compute; reflexivity|]. split; [vm_compute; reflexivity|].
  split; [vm_compute; reflexivity|]. split; [vm_compute; reflexivity|]. vm_compute. intros [K|[]]. discriminate K.
Qed.
Print Assumptions C67_desync_refuted.
Example C67_nonvacuous : regular sample_fields /\ connection hi_new hi_new (request_fields MGet (str "example.com") ScHttps (str "/a/b") sample_fields) /\
  defined_flags 4 /\ is_padded 4 = false.
Proof.
  split; [apply C64_nonvacuous|]. split; [exact connection_fresh|]. split; [exists false, true, false, false; reflexivity|reflexivity].
Qed.

(** C37, all texts: a value of HTTP2-Settings is accepted exactly if it is the base64url form, without padding and with
    zero left-over bits, of a SETTINGS payload with legal values. *)
Theorem C37_exact : forall text s, parse_http_settings text = Ok s <->
  exists es, base64url (concat (map entry_octets es)) text /\ Forall entry_range es /\ Forall entry_legal es /\ s = settings_of es.
Proof. exact http_settings_exact. Qed.
Print Assumptions C37_exact.
Theorem C37_not_base64 : forall text, (forall data, bytes_ok data -> ~ base64url data text) -> parse_http_settings text = Err (EHttp2 InvalidSettingValue).
Proof. exact http_settings_bad. Qed.
Print Assumptions C37_not_base64.
Theorem C37_bad_length : forall text data, bytes_ok data -> base64url data text -> blen data mod 6 <> 0 ->
  parse_http_settings text = Err (EHttp2 InvalidPayloadLength).
Proof. exact http_settings_length. Qed.
Print Assumptions C37_bad_length.
Example C37_exact_nonvacuous : parse_http_settings (str "AAMAAABk") = Ok (mkSettings 0 None None (Some 100) None None None None) /\
  parse_http_settings (str "AB") = Err (EHttp2 InvalidSettingValue) /\ parse_http_settings (str "AA==") = Err (EHttp2 InvalidSettingValue) /\
  parse_http_settings (str "AA") = Err (EHttp2 InvalidPayloadLength).
Proof. repeat split. Qed.
