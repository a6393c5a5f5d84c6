(** Theorems C89 (what is set on a frame) and C90 (what errors say). *)
From Coq Require Import Ascii String NArith ZArith Lia Bool List.
From Verif Require Import Base P_Base S_Utf8 M_Std M_Helper M_Header M_Url M_Http1 S_Http1 S_Http1Api S_Map S_Url M_Huffman M_Hpack S_Huffman S_Hpack S_HpackApi M_Frame M_H2 M_Ws S_Frame S_H2Api P_Frame P_Settings P_Ctl P_Data P_H2 P_H2Msg T_Frame T_H2 M_Access S_Access P_Access.
Import ListNotations.
Local Open Scope N_scope.

(** C89. After any sequence of setter calls on a SETTINGS frame, every getter shows what the last call for its
    field has set, or the value from before the calls. *)
Theorem C89_settings : forall s cs, (forall n, In (CallFrameSize (Some n)) cs -> legal_frame_size n) ->
  exists s', settings_calls s cs = Ok s' /\
    st_initial_window_size s' = latest sets_window (st_initial_window_size s) cs /\
    st_max_concurrent_streams s' = latest sets_concurrent (st_max_concurrent_streams s) cs /\
    st_max_frame_size s' = latest sets_frame_size (st_max_frame_size s) cs /\
    st_max_header_list_size s' = latest sets_list_size (st_max_header_list_size s) cs /\
    is_push_enabled s' = latest sets_push (is_push_enabled s) cs /\
    st_enable_connect_protocol s' = latest sets_connect (st_enable_connect_protocol s) cs /\
    st_header_table_size s' = st_header_table_size s /\ st_flags s' = st_flags s.
Proof. intros s cs. exact (settings_calls_ok cs s). Qed.
Print Assumptions C89_settings.
(** A call panics exactly for a maximal frame size that HTTP/2 does not allow. *)
Theorem C89_settings_panic : forall s cs, settings_calls s cs = Panic <->
  exists n, In (CallFrameSize (Some n)) cs /\ ~ legal_frame_size n.
Proof. intros s cs. exact (settings_calls_panic cs s). Qed.
Print Assumptions C89_settings_panic.
(** The peer sees the same values, if they are allowed ones. *)
Theorem C89_settings_peer : forall t max cs rest, Forall legal_call cs ->
  exists s, settings_calls settings_default cs = Ok s /\
    recv t max (settings_encode s ++ rest) = (t, Ok (FSettings s, rest)) /\
    st_initial_window_size s = latest sets_window None cs /\
    st_max_concurrent_streams s = latest sets_concurrent None cs /\
    st_max_frame_size s = latest sets_frame_size None cs /\
    st_max_header_list_size s = latest sets_list_size None cs /\
    is_push_enabled s = latest sets_push None cs /\
    st_enable_connect_protocol s = latest sets_connect None cs.
Proof.
  intros t max cs rest L. destruct (C89_settings settings_default cs) as (s & E & W & C & M & H & P & X & _).
  { intros n I. apply (proj1 (Forall_forall _ _) L _ I). }
  exists s. split; [exact E|]. split; [apply recv_settings, (legal_calls_settings cs s L E)|]. auto 10.
Qed.
Print Assumptions C89_settings_peer.
(** Refuted without the condition: window sizes are not checked when they are set, only by the peer. *)
Theorem C89_window_refuted : exists s t, settings_calls settings_default [CallWindow (Some 2147483648)] = Ok s /\
  recv t 100 (settings_encode s) = (t, Err (EHttp2 InvalidSettingValue)).
Proof. eexists. exists hi_new. split; [reflexivity|]. vm_compute. reflexivity. Qed.
Print Assumptions C89_window_refuted.

(** HEADERS frames: flags and pseudo fields. *)
Theorem C89_headers : forall h cs, let h' := headers_calls h cs in
  hf_is_end_headers h' = latest sets_end_headers (hf_is_end_headers h) cs /\
  hf_is_end_stream h' = latest sets_end_stream (hf_is_end_stream h) cs /\
  hf_method h' = latest sets_method (hf_method h) cs /\
  hf_scheme h' = latest sets_scheme (hf_scheme h) cs /\
  hf_authority h' = latest sets_authority (hf_authority h) cs /\
  hf_path h' = latest sets_path (hf_path h) cs /\
  hf_status h' = latest sets_status (hf_status h) cs /\
  is_padded (hf_flags h') = is_padded (hf_flags h) /\ is_priority (hf_flags h') = is_priority (hf_flags h) /\
  hf_id h' = hf_id h /\ hf_dep h' = hf_dep h /\ hf_fields h' = hf_fields h.
Proof. intros h cs. exact (headers_calls_ok cs h). Qed.
Print Assumptions C89_headers.
Theorem C89_informational : forall h cs, hf_is_informational (headers_calls h cs) = true <->
  exists n, latest sets_status (hf_status h) cs = Some n /\ 100 <= n < 200.
Proof.
  intros h cs. destruct (C89_headers h cs) as (_ & _ & _ & _ & _ & _ & S & _). unfold hf_is_informational.
  change (pt_status (hf_parts (headers_calls h cs))) with (hf_status (headers_calls h cs)). rewrite S.
  destruct (latest sets_status (hf_status h) cs) as [n|]; [|split; [discriminate|intros (n & E & _); discriminate E]].
  unfold is_informational. rewrite andb_true_iff, N.ltb_lt, N.leb_le. split; [intros; exists n; split; [reflexivity|lia]|intros (m & E & R); injection E as ->; lia].
Qed.
Print Assumptions C89_informational.
(** The end of the stream reaches the peer for a request in one frame; the pseudo fields that are set on the frame do
    not: those the peer sees are the ones among the fields, whatever has been called. *)
Theorem C89_headers_peer_partial : forall te td m a s p fs id es eh max L rest cs,
  In m known_methods -> legal_scheme s -> is_utf8 a -> is_utf8 p -> regular fs ->
  connection te td (request_fields m a s p fs) -> id < 2147483648 ->
  total_size (request_fields m a s p fs) <= L -> 5 * total_size (request_fields m a s p fs) <= max -> max < 16777216 ->
  exists te' td' out,
    headers_encode max te (headers_calls (mkHeaders id None (request_fields m a s p fs) parts_default (flags_of es eh false false)) cs) = Ok (te', out) /\
    recv td L (out ++ rest) =
    (td', Ok (FHeaders (mkHeaders id None fs (mkParts (Some m) (Some s) (Some a) (Some p) None)
      (flags_of (latest sets_end_stream es cs) true false false)), rest)).
Proof.
  intros te td m a s p fs id es eh max L rest cs M S A U R C I T X Y. set (h := mkHeaders _ _ _ _ _).
  destruct (C89_headers h cs) as (EH & ES & _ & _ & _ & _ & _ & PA & PR & ID & DE & FI).
  assert (D : defined_flags (hf_flags (headers_calls h cs))) by (apply headers_calls_defined; exists es, eh, false, false; reflexivity).
  apply defined_flags_view in D. destruct (flags_of_view es eh false false) as (V1 & _ & _ & V3 & V4 & _).
  unfold hf_is_end_stream in ES. cbn [hf_flags h] in ES, PA, PR. subst h. cbn [hf_flags hf_id hf_dep hf_fields] in *.
  rewrite V1 in ES. rewrite V3 in PA. rewrite V4 in PR. rewrite ES, PA, PR in D.
  destruct (C64_request te td m a s p fs id (latest sets_end_stream es cs) (is_end_headers (hf_flags (headers_calls (mkHeaders id None (request_fields m a s p fs) parts_default (flags_of es eh false false)) cs))) max L (hf_parts (headers_calls (mkHeaders id None (request_fields m a s p fs) parts_default (flags_of es eh false false)) cs)) rest M S A U R C I T X Y)
    as (te' & td' & out & _ & E & V).
  exists te', td', out. split; [|exact V]. rewrite <- E. f_equal.
  destruct (headers_calls _ cs) as [i d f q g] eqn:Q. cbn [hf_id hf_dep hf_fields hf_flags hf_parts] in *. rewrite ID, DE, FI, <- D. reflexivity.
Qed.
Print Assumptions C89_headers_peer_partial.
Theorem C89_pseudo_refuted : exists h te out td, headers_calls (mkHeaders 1 None [] parts_default 0) [CallStatus 204] = h /\ hf_status h = Some 204 /\
  headers_encode 16384 hi_new h = Ok (te, out) /\ recv hi_new 100 out = (td, Ok (FHeaders (mkHeaders 1 None [] parts_default 4), [])).
Proof. do 4 eexists. split; [reflexivity|]. split; [reflexivity|]. split; [vm_compute; reflexivity|]. vm_compute. reflexivity. Qed.
Print Assumptions C89_pseudo_refuted.

(** PUSH_PROMISE frames.  No call sets the scheme. *)
Theorem C89_push : forall h cs, let h' := push_calls h cs in
  is_end_headers (pp_flags h') = latest psets_end_headers (is_end_headers (pp_flags h)) cs /\
  is_end_stream (pp_flags h') = latest psets_end_stream (is_end_stream (pp_flags h)) cs /\
  pt_method (pp_parts h') = latest psets_method (pt_method (pp_parts h)) cs /\
  pt_authority (pp_parts h') = latest psets_authority (pt_authority (pp_parts h)) cs /\
  pt_path (pp_parts h') = latest psets_path (pt_path (pp_parts h)) cs /\
  pt_status (pp_parts h') = latest psets_status (pt_status (pp_parts h)) cs /\
  pt_scheme (pp_parts h') = pt_scheme (pp_parts h) /\
  is_padded (pp_flags h') = is_padded (pp_flags h) /\ is_priority (pp_flags h') = is_priority (pp_flags h) /\
  pp_id h' = pp_id h /\ pp_promised h' = pp_promised h /\ pp_fields h' = pp_fields h.
Proof. intros h cs. exact (push_calls_ok cs h). Qed.
Print Assumptions C89_push.

(** DATA frames, and how they arrive. *)
Theorem C89_data : forall d cs, let d' := data_calls d cs in
  da_is_end_stream d' = latest dsets_end_stream (da_is_end_stream d) cs /\
  da_is_padded d' = latest dsets_padded (da_is_padded d) cs /\
  da_data d' = latest dsets_payload (da_data d) cs /\
  is_end_headers (da_flags d') = is_end_headers (da_flags d) /\ is_priority (da_flags d') = is_priority (da_flags d) /\
  da_id d' = da_id d.
Proof. intros d cs. exact (data_calls_ok cs d). Qed.
Print Assumptions C89_data.
Theorem C89_data_peer_partial : forall L t max id l cs, 0 < max < 16777216 -> 0 < id < 2147483648 -> ~ In DCallPadded cs ->
  exists out chunks last, data_encode max (data_calls (mkData id l 0) cs) = Ok out /\
    received L t out t (map (fun c => FData (mkData id c 0)) chunks ++
                        [FData (mkData id last (if latest dsets_end_stream false cs then 1 else 0))]) /\
    concat chunks ++ last = latest dsets_payload l cs.
Proof.
  intros L t max id l cs M I N. destruct (C89_data (mkData id l 0) cs) as (ES & PA & DA & EH & PR & ID). cbn [da_data da_id da_flags] in *.
  assert (D : defined_flags (da_flags (data_calls (mkData id l 0) cs))) by (apply data_calls_defined; exists false, false, false, false; reflexivity).
  assert (P : latest dsets_padded false cs = false).
  { apply (latest_in dsets_padded (fun b => b = false)); [reflexivity|]. intros c v K Q. destruct c; try discriminate Q. destruct (N K). }
  apply defined_flags_view in D. unfold da_is_end_stream, da_is_padded in *. cbn [da_flags] in *.
  change (is_end_stream 0) with false in ES. change (is_padded 0) with false in PA. change (is_end_headers 0) with false in EH. change (is_priority 0) with false in PR.
  rewrite ES, PA, EH, PR, P in D.
  destruct (T_Frame.C38_data_received L t max (data_calls (mkData id l 0) cs) (latest dsets_end_stream false cs) false false M) as (out & ch & la & E & R & C);
    [rewrite ID; exact I|exact D|].
  exists out, ch, la. rewrite ID in R. rewrite DA in C. split; [exact E|]. split; [|exact C].
  replace (if latest dsets_end_stream false cs then 1 else 0) with (flags_of (latest dsets_end_stream false cs) false false false) by (destruct (latest dsets_end_stream false cs); reflexivity).
  exact R.
Qed.
Print Assumptions C89_data_peer_partial.
(** Refuted with set_padded: an octet of the data is lost. *)
Theorem C89_padded_refuted : exists out t, data_encode 16384 (data_calls (mkData 1 [0; 1; 2] 0) [DCallPadded]) = Ok out /\
  recv t 100 out = (t, Ok (FData (mkData 1 [1; 2] 8), [])).
Proof. eexists. exists hi_new. split; [vm_compute; reflexivity|]. vm_compute. reflexivity. Qed.
Print Assumptions C89_padded_refuted.

(** Flags: every setter changes one bit, every test reads one. *)
Theorem C89_flag_tests : forall f, is_ack f = N.testbit f 0 /\ is_end_stream f = N.testbit f 0 /\ is_end_headers f = N.testbit f 2 /\
  is_padded f = N.testbit f 3 /\ is_priority f = N.testbit f 5.
Proof. exact flag_bits. Qed.
Print Assumptions C89_flag_tests.
Theorem C89_flag_setters : forall f i,
  N.testbit (set_end_stream f) i = (if i =? 0 then true else N.testbit f i) /\
  N.testbit (unset_end_stream f) i = (if i =? 0 then false else N.testbit f i) /\
  N.testbit (set_end_headers f) i = (if i =? 2 then true else N.testbit f i) /\
  N.testbit (unset_end_headers f) i = (if i =? 2 then false else N.testbit f i) /\
  N.testbit (set_padded f) i = (if i =? 3 then true else N.testbit f i) /\
  N.testbit (unset_padded f) i = (if i =? 3 then false else N.testbit f i) /\
  N.testbit (flag_load f) i = (if i =? 0 then true else N.testbit f i).
Proof. exact flag_setters. Qed.
Print Assumptions C89_flag_setters.
Example C89_nonvacuous :
  Forall legal_call [CallWindow (Some 65535); CallPush false; CallFrameSize (Some 16384); CallWindow (Some 100); CallConnect (Some 1)] /\
  latest sets_window None [CallWindow (Some 65535); CallPush false; CallFrameSize (Some 16384); CallWindow (Some 100)] = Some 100 /\
  hf_path (headers_calls headers_empty [CallPath (str "/a"); CallEndStream; CallPath (str "/b")]) = Some (str "/b") /\
  da_is_end_stream (data_calls (mkData 1 [] 0) [DCallEndStream true; DCallPayload [1]]) = true /\
  data_calls (mkData 1 [] 0) [DCallEndStream true; DCallPayload [1]; DCallEndStream false] = mkData 1 [1] 0.
Proof.
  split; [repeat constructor; cbn; unfold legal_frame_size; lia|]. repeat split.
Qed.

(** C90. Every error of the HTTP/1 and URL parsers and of the chunk reader is displayed as a text ... *)
Theorem C90_request : forall q l e, snd (req_parse q l) = Err e -> explained e.
Proof. intros q l e. exact (expl_req q l e). Qed.
Print Assumptions C90_request.
Theorem C90_response : forall p l e, snd (resp_parse p l) = Err e -> explained e.
Proof. intros q l e. exact (expl_resp q l e). Qed.
Print Assumptions C90_response.
Theorem C90_url : forall l e, url_parse l = Err e -> explained e.
Proof. intros l e. exact (expl_url_parse l e). Qed.
Print Assumptions C90_url.
Theorem C90_chunk : forall l e, parse_chunk_data l = Err e -> explained e.
Proof. intros l e. exact (expl_chunk l e). Qed.
Print Assumptions C90_chunk.
(** ... and the text tells the errors of these parsers apart, except for what an Extension, Serialize or Io error
    carries. *)
Definition same_kind (e f : werr) : Prop :=
  match e, f with
  | EExtension _, EExtension _ | ESerialize _, ESerialize _ | EIo _, EIo _ => True
  | _, _ => e = f
  end.
Theorem C90_texts_differ : forall e f, (forall x, e <> EHttp2 x) -> (forall x, f <> EHttp2 x) -> (forall x, e <> EWs x) -> (forall x, f <> EWs x) ->
  err_text e = err_text f -> same_kind e f.
Proof.
  intros e f E1 F1 E2 F2 T.
  destruct e as [e|e|e|e| |s|s|k]; try (destruct (E1 _ eq_refl)); try (destruct (E2 _ eq_refl));
  destruct f as [f|f|f|f| |s'|s'|k']; try (destruct (F1 _ eq_refl)); try (destruct (F2 _ eq_refl));
  try exact I; try reflexivity; try (destruct e); try (destruct f); try discriminate T; reflexivity.
Qed.
Print Assumptions C90_texts_differ.
(** An incomplete message is recognised by its error, and by nothing else. *)
Theorem C90_incomplete : forall e, is_partial e = true <-> e = EHttp Partial.
Proof. intros e. split; [|intros ->; reflexivity]. destruct e as [[]|?|?|?| |?|?|?]; try discriminate. reflexivity. Qed.
Print Assumptions C90_incomplete.
(** Refuted for HTTP/2: no error has a text. *)
Theorem C90_http2_refuted : forall e, err_text (EHttp2 e) = ""%string.
Proof. intros []; reflexivity. Qed.
Print Assumptions C90_http2_refuted.
(** WebSocket: an error has a text unless it is a protocol error, which never has one. *)
Theorem C90_ws_read_partial : forall l e, read_dataframe l = Err e -> (explained e <-> forall s, e <> EWs (ProtocolError s)).
Proof. intros l. exact (ws_dataframe_expl l). Qed.
Print Assumptions C90_ws_read_partial.
Theorem C90_ws_limit_partial : forall n l e, read_dataframe_with_limit n l = Err e -> (explained e <-> forall s, e <> EWs (ProtocolError s)).
Proof. intros n l. exact (ws_limit_expl n l). Qed.
Print Assumptions C90_ws_limit_partial.
Theorem C90_ws_message_partial : forall fs e, owned_from_dataframes fs = Err e -> (explained e <-> forall s, e <> EWs (ProtocolError s)).
Proof. intros fs. exact (ws_owned_expl fs). Qed.
Print Assumptions C90_ws_message_partial.
Theorem C90_ws_write : forall d k e, write_to d k = Err e -> explained e.
Proof.
  intros d k e E. apply (ws_write_expl d k e E). intros s ->. unfold write_to in E. cbn zeta in E. unfold write_header in E. cbn [wh_opcode wh_len] in E.
  destruct (15 <? df_opcode d); [discriminate E|]. destruct ((8 <=? df_opcode d) && (126 <=? df_size d)); [discriminate E|]. destruct k; discriminate E.
Qed.
Print Assumptions C90_ws_write.
Theorem C90_ws_refuted : exists e, read_dataframe [9; 0] = Err e /\ err_text e = ""%string /\
  owned_from_dataframes [] = Err (EWs (ProtocolError "No dataframes provided")) /\ err_text (EWs (ProtocolError "No dataframes provided")) = ""%string.
Proof. eexists. repeat split. Qed.
Print Assumptions C90_ws_refuted.
Example C90_nonvacuous : snd (req_parse req_default (str "GET / HTTP/9" ++ crlf)) = Err (EHttp VersionErr) /\
  err_text (EHttp VersionErr) = "invalid HTTP version"%string /\ url_parse (str "1") = Err (EUrl UrlInvalid) /\
  snd (resp_parse resp_default (str "HTTP/1.1 20")) = Err (EHttp Partial).
Proof. repeat split. Qed.

(** Stream identifiers: those a client and a server hand out, starting from their first ones, never meet and are never
    zero; they are ordered as numbers and printed in decimal. *)
Theorem C89_stream_ids : forall n k, 2 + 2 * N.of_nat n < 4294967296 -> 2 + 2 * N.of_nat k < 4294967296 ->
  exists lc ls, ids n sid_client_first = Ok lc /\ ids k sid_server_first = Ok ls /\
    Forall (fun i => N.odd i = true /\ sid_is_zero i = false) lc /\ Forall (fun i => N.even i = true /\ sid_is_zero i = false) ls /\
    NoDup lc /\ NoDup ls /\ (forall i, In i lc -> ~ In i ls).
Proof.
  intros n k A B. destruct (C57_next_ids n sid_client_first) as (lc & E & Ec & Nc & Fc); [unfold sid_client_first; lia|].
  destruct (C57_next_ids k sid_server_first) as (ls & E' & Es & Ns & Fs); [unfold sid_server_first; lia|].
  assert (Zs : Forall (fun i => 2 <= i) ls) by (apply Forall_forall; intros i I; rewrite Es in I; apply in_map_iff in I as (x & <- & _); unfold sid_server_first; lia).
  exists lc, ls. split; [exact E|]. split; [exact E'|]. split; [|split; [|split; [exact Nc|split; [exact Ns|]]]].
  - eapply Forall_impl; [|exact Fc]. intros i O. split; [exact O|]. destruct i; [discriminate O|reflexivity].
  - apply Forall_forall. intros i I. pose proof (proj1 (Forall_forall _ _) Fs i I) as O. pose proof (proj1 (Forall_forall _ _) Zs i I) as Z. cbn beta in O, Z.
    split; [rewrite <- N.negb_odd, O; reflexivity|]. unfold sid_is_zero. apply N.eqb_neq. lia.
  - intros i I J. pose proof (proj1 (Forall_forall _ _) Fc i I) as O. pose proof (proj1 (Forall_forall _ _) Fs i J) as O'. cbn beta in O, O'. rewrite O in O'. discriminate O'.
Qed.
Print Assumptions C89_stream_ids.
Theorem C89_stream_order : forall a b, (sid_cmp a b = Lt <-> a < b) /\ (sid_cmp a b = Eq <-> a = b) /\ (sid_cmp a b = Gt <-> b < a).
Proof. intros a b. unfold sid_cmp. split; [apply N.compare_lt_iff|]. split; [apply N.compare_eq_iff|apply N.compare_gt_iff]. Qed.
Print Assumptions C89_stream_order.
Theorem C89_stream_print : forall s, s < 4294967296 -> parse_uint 4294967296 (sid_display s) = Some s.
Proof. intros s. exact (P_Std.parse_uint_print 4294967296 s). Qed.
Print Assumptions C89_stream_print.
(** Stream zero is the connection: the one identifier that is_zero tells, and the one that frames of the connection bear. *)
Theorem C89_stream_zero : forall s, (sid_is_zero s = true <-> s = 0) /\ (sid_is_zero s = true <-> s = sid_zero).
Proof. intros s. unfold sid_is_zero, sid_zero. split; apply N.eqb_eq. Qed.
Print Assumptions C89_stream_zero.
(** A frame made by Headers::empty shows what was set on it and nothing else; it is on no stream. *)
Theorem C89_empty : forall cs, let h := headers_calls headers_empty cs in
  (hf_is_end_headers h = true <-> In CallEndHeaders cs) /\ (hf_is_end_stream h = true <-> In CallEndStream cs) /\
  hf_method h = latest sets_method None cs /\ hf_scheme h = latest sets_scheme None cs /\ hf_authority h = latest sets_authority None cs /\
  hf_path h = latest sets_path None cs /\ hf_status h = latest sets_status None cs /\ hf_into_fields h = [] /\
  sid_is_zero (hf_id h) = true /\ hf_dep h = None /\ is_padded (hf_flags h) = false /\ is_priority (hf_flags h) = false.
Proof.
  intros cs. destruct (C89_headers headers_empty cs) as (A & B & C & D & E & F & G & P & Q & I & J & K). cbv zeta.
  assert (L : forall (f : headers_call -> option bool) c b, (forall x y, f x = Some y -> x = c /\ y = true) -> f c = Some true ->
    (latest f b cs = true <-> b = true \/ In c cs)).
  { intros f c b H1 H2. clear - H1 H2. revert b. induction cs as [|x cs IH]; intros b; [cbn; tauto|]. cbn [latest]. rewrite IH. cbn [In]. destruct (f x) as [y|] eqn:X.
    - apply H1 in X as [-> ->]. tauto.
    - split; [tauto|]. intros [T|[T|T]]; [tauto| |tauto]. subst x. congruence. }
  split; [rewrite A, (L _ CallEndHeaders); [cbn; intuition discriminate|intros [] ? X; try discriminate X; injection X as <-; auto|reflexivity]|].
  split; [rewrite B, (L _ CallEndStream); [cbn; intuition discriminate|intros [] ? X; try discriminate X; injection X as <-; auto|reflexivity]|].
  rewrite C, D, E, F, G, I, J, P, Q. unfold hf_into_fields. rewrite K. repeat split.
Qed.
Print Assumptions C89_empty.
(** No frame says that its list was too long: such lists are refused, and is_over_size is never set. *)
Theorem C89_over_size : forall t max l t' h rest, recv t max l = (t', Ok (FHeaders h, rest)) -> hf_is_over_size h = false.
Proof. reflexivity. Qed.
Print Assumptions C89_over_size.
Example C89_ids_nonvacuous : ids 3 sid_client_first = Ok [1; 3; 5] /\ ids 2 sid_server_first = Ok [2; 4] /\ sid_display 15 = str "15" /\ sid_is_zero sid_zero = true.
Proof. repeat split. Qed.
