(** Lemmas for C99-C101. *)
From Coq Require Import Ascii String NArith ZArith Lia Bool List ZifyBool ZifyNat ZifyN.
From Verif Require Import Base S_Utf8 P_Base M_Ws S_Ws S_WsApi P_Ws M_Std M_Helper M_Header M_Url M_Http1 S_Http1 S_Http1Api P_Std P_Helper P_Header P_Http1 P_Msg
  M_Huffman M_Hpack M_Frame M_H2 S_Frame S_H2Api P_Frame P_Settings P_Ctl P_Data M_Build M_Small S_Small.
Import ListNotations.
Local Open Scope N_scope.

(** ** WebSocket *)
Lemma write_to_same d e key : df_last d = df_last e -> df_opcode d = df_opcode e -> df_rsv d = df_rsv e -> df_size d = df_size e ->
  concat (df_chunks d) = concat (df_chunks e) -> write_to d key = write_to e key.
Proof.
  intros A B C D E. unfold write_to, df_flags. rewrite A, B, C, D.
  destruct (write_header _); cbn [bind]; try reflexivity. destruct key.
  - rewrite !masker_chunks, E. reflexivity.
  - rewrite !fold_app_concat, E. reflexivity.
Qed.

Lemma two_forms_write m key : write_to (message_df (message_of_owned m)) key = write_to (owned_df m) key.
Proof.
  apply write_to_same; destruct m as [s|s|[c|]|s|s]; try reflexivity;
    cbn [owned_df message_df message_of_owned m_op m_code m_payload msg_text msg_binary msg_close msg_close_because msg_ping msg_pong df_size];
    rewrite ?N.add_0_r; reflexivity.
Qed.

Lemma two_forms_size m masked : frame_size (message_df (message_of_owned m)) masked = owned_size m masked.
Proof.
  unfold owned_size, frame_size. replace (df_size (owned_df m)) with (df_size (message_df (message_of_owned m))); [reflexivity|].
  destruct m as [s|s|[c|]|s|s]; cbn [owned_df message_df message_of_owned m_op m_code m_payload msg_text msg_binary msg_close msg_close_because msg_ping msg_pong df_size];
    rewrite ?N.add_0_r; reflexivity.
Qed.

Lemma owned_take m : typed_owned m -> df_take (owned_df m) = wire_payload m.
Proof.
  destruct m as [s|s|[[c r]|]|s|s]; cbn [owned_df df_take wire_payload cd_code cd_reason typed_owned]; intros T; try reflexivity.
  rewrite be_enc_2 by tauto. reflexivity.
Qed.

Lemma owned_opcode m : df_opcode (owned_df m) = wire_opcode m.
Proof. destruct m; reflexivity. Qed.

Lemma owned_wire m key : typed_owned m -> blen (wire_payload m) < 2 ^ 64 ->
  (ow_is_control m = true -> blen (wire_payload m) <= 125) ->
  write_to (owned_df m) key = Ok (spec_frame true false false false (wire_opcode m) key (wire_payload m)).
Proof.
  intros T L C. destruct (owned_df_ok m) as [_ S]. rewrite owned_take in S by exact T.
  rewrite write_to_spec; [|apply owned_df_ok|destruct m; cbn; lia| |rewrite S; exact L].
  - rewrite owned_take, owned_opcode by exact T. reflexivity.
  - rewrite S. intros G. apply C. destruct m; cbn in *; try reflexivity; lia.
Qed.

Lemma owned_refused m key : typed_owned m -> ow_is_control m = true -> 125 < blen (wire_payload m) ->
  exists s, write_to (owned_df m) key = Err (EWs (DataFrameError s)).
Proof.
  intros T C L. destruct (owned_df_ok m) as [_ S]. rewrite owned_take in S by exact T.
  unfold write_to.
  destruct (write_header_reject {| wh_flags := df_flags (owned_df m); wh_opcode := df_opcode (owned_df m); wh_mask := key; wh_len := df_size (owned_df m) |}) as [R _].
  destruct R as [s R].
  { right. cbn [wh_opcode wh_len]. rewrite S, owned_opcode. destruct m; try discriminate C; cbn [wire_opcode]; lia. }
  exists s. rewrite R. reflexivity.
Qed.

Lemma owned_octets m key w : typed_owned m -> blen (wire_payload m) < 2 ^ 64 -> write_to (owned_df m) key = Ok w ->
  w = spec_frame true false false false (wire_opcode m) key (wire_payload m) /\
  blen w = owned_size m (match key with Some _ => true | None => false end).
Proof.
  intros T L H. destruct (ow_is_control m) eqn:C.
  - destruct (N.leb_spec (blen (wire_payload m)) 125) as [G|G].
    + rewrite owned_wire in H by auto. injection H as <-. split; [reflexivity|].
      destruct (owned_df_ok m) as [A B]. unfold owned_size. rewrite <- frame_size_spec; [|apply owned_df_ok|rewrite B, owned_take by exact T; exact L].
      rewrite owned_take, owned_opcode by exact T. reflexivity.
    + destruct (owned_refused m key T C G) as [s E]. rewrite E in H. discriminate H.
  - rewrite owned_wire in H; [|exact T|exact L|rewrite C; discriminate]. injection H as <-. split; [reflexivity|].
    destruct (owned_df_ok m) as [A B]. unfold owned_size. rewrite <- frame_size_spec; [|apply owned_df_ok|rewrite B, owned_take by exact T; exact L].
    rewrite owned_take, owned_opcode by exact T. reflexivity.
Qed.

Lemma owned_back_typed m : typed_owned m -> owned_of_message (message_of_owned m) = m.
Proof.
  destruct m as [s|s|[[c r]|]|s|s]; cbn [typed_owned message_of_owned owned_of_message m_op m_code m_payload
    msg_text msg_binary msg_close msg_close_because msg_ping msg_pong cd_code cd_reason]; intros H; try reflexivity.
  - rewrite utf8_lossy_valid; [reflexivity|]. apply utf8_valid_iff. tauto.
  - rewrite utf8_lossy_valid; [reflexivity|]. apply utf8_valid_iff. tauto.
Qed.

Lemma lossy_fix s : utf8_lossy s = s <-> is_utf8 s.
Proof.
  split; intros H.
  - apply utf8_valid_iff. rewrite <- H. apply utf8_lossy_ok.
  - apply utf8_lossy_valid, utf8_valid_iff, H.
Qed.

Lemma message_back m : message_of_owned (owned_of_message m) = m <-> regular_message m.
Proof.
  destruct m as [op [c|] p]; destruct op; unfold regular_message, owned_of_message, msg_text, msg_binary, msg_close, msg_close_because, msg_ping, msg_pong;
    cbn [m_op m_code m_payload message_of_owned msg_text msg_binary msg_close msg_close_because msg_ping msg_pong cd_code cd_reason];
    unfold msg_text, msg_binary, msg_close, msg_close_because, msg_ping, msg_pong;
    try (split; [discriminate|tauto]); try (split; [reflexivity|reflexivity]); try tauto.
  - rewrite <- lossy_fix. split; [intros H; injection H; auto|intros ->; reflexivity].
  - rewrite <- lossy_fix. split; [intros H; injection H; auto|intros ->; reflexivity].
  - split; [intros H; injection H; auto|intros ->; reflexivity].
Qed.

(** ** Status codes *)
Lemma status_line s : 100 <= s <= 999 ->
  (forall t, canonical_reason s = Some t -> status_display s = three_digits s ++ 32 :: t /\ status_encode s = Ok (status_display s ++ crlf)) /\
  (canonical_reason s = None -> status_display s = three_digits s ++ 32 :: str "<unknown status code>" /\ status_encode s = Err (EHttp InvalidStatusCode)).
Proof.
  intros R. unfold status_display, status_encode. rewrite <- status_str_dec by exact R. rewrite status_str_three by exact R. split.
  - intros t ->. split; [reflexivity|]. rewrite <- app_assoc. reflexivity.
  - intros ->. split; reflexivity.
Qed.

Fixpoint distinct {A} (eqb : A -> A -> bool) (l : list A) : bool :=
  match l with [] => true | x :: r => negb (existsb (eqb x) r) && distinct eqb r end.
Lemma distinct_nodup {A} (eqb : A -> A -> bool) (l : list A) : (forall x, eqb x x = true) -> distinct eqb l = true -> NoDup l.
Proof.
  intros R. induction l as [|x l IH]; intros H; [constructor|]. cbn [distinct] in H. apply andb_prop in H as [H1 H2].
  constructor; [|apply IH, H2]. intros I. rewrite (proj2 (existsb_exists (eqb x) l)) in H1; [discriminate H1|]. exists x. auto.
Qed.

Lemma consts_table :
  forallb (fun c => match canonical_reason (snd c) with Some t => beq (str (fst c)) (spelled t) | None => false end) status_consts = true /\
  map snd status_consts = map fst reason_table /\ NoDup (map snd status_consts) /\ NoDup (map fst status_consts).
Proof.
  split; [vm_compute; reflexivity|]. split; [vm_compute; reflexivity|]. split.
  - apply (distinct_nodup N.eqb); [apply N.eqb_refl|vm_compute; reflexivity].
  - apply (distinct_nodup String.eqb); [apply String.eqb_refl|vm_compute; reflexivity].
Qed.

Lemma reason_lookup_in t n r : reason_lookup t n = Some r -> In n (map fst t).
Proof.
  induction t as [|[m s] t IH]; cbn [reason_lookup map fst In]; [discriminate|].
  destruct (N.eqb_spec m n); [auto|]. intros H. right. apply IH, H.
Qed.

Lemma consts_spell c n : In (c, n) status_consts -> exists t, canonical_reason n = Some t /\ str c = spelled t.
Proof.
  intros H. destruct consts_table as [T _]. rewrite forallb_forall in T. specialize (T _ H). cbn [fst snd] in T.
  destruct (canonical_reason n) as [t|]; [|discriminate T]. exists t. split; [reflexivity|]. apply beq_eq, T.
Qed.
Lemma consts_all n t : canonical_reason n = Some t -> exists c, In (c, n) status_consts.
Proof.
  intros H. apply reason_lookup_in in H. destruct consts_table as [_ [E _]]. rewrite <- E in H.
  apply in_map_iff in H as ([c m] & <- & I). exists c. exact I.
Qed.

(** ** HTTP/2 *)
Lemma preface_frame l : fh_parse (HTTP2_MAGIC ++ l) = Err (EHttp2 (BadFlag 42)).
Proof. change (HTTP2_MAGIC ++ l) with (header_octets 5263945 32 42 541611092 ++ skipn 9 HTTP2_MAGIC ++ l). rewrite fh_parse_octets by lia. reflexivity. Qed.

Lemma preface_request q l : snd (req_parse q (HTTP2_MAGIC ++ l)) = Err (EHttp MethodErr).
Proof. reflexivity. Qed.

Lemma read_u64_eq l : read_u64 l = match take_n 8 l with Some (a, r) => Ok (be_dec a, r) | None => Ok (0, l) end.
Proof.
  unfold read_u64, get. destruct (N.ltb_spec (blen l) 8) as [L|L].
  - destruct (take_n 8 l) as [[a r]|] eqn:E; [|reflexivity]. exfalso.
    do 8 (destruct l as [|? l]; [discriminate E|]). rewrite !blen_cons in L. lia.
  - destruct (take_n 8 l) as [[a r]|] eqn:E; [reflexivity|]. exfalso.
    do 8 (destruct l as [|? l]; [cbv in L; apply L; reflexivity|]). discriminate E.
Qed.

Lemma ping_octets b p : blen p = 8 -> ping_encode (mkPing b p) = frame_octets 6 (if b then 1 else 0) 0 p.
Proof. intros L. unfold ping_encode, frame_octets. cbn [pg_ack pg_payload]. rewrite fh_encode_octets by lia. reflexivity. Qed.
Lemma reset_octets id c : id < 4294967296 -> c < 4294967296 -> reset_encode (mkReset id c) = frame_octets 3 0 id (octets4 c).
Proof. intros I C. unfold reset_encode, frame_octets. cbn [rs_id rs_code]. rewrite fh_encode_octets by lia. rewrite be_enc_4 by exact C. reflexivity. Qed.
Lemma winupd_octets id c : id < 4294967296 -> c < 4294967296 -> winupd_encode (mkWin id c) = frame_octets 8 0 id (octets4 c).
Proof. intros I C. unfold winupd_encode, frame_octets. cbn [wu_id wu_inc]. rewrite fh_encode_octets by lia. rewrite be_enc_4 by exact C. reflexivity. Qed.
Lemma goaway_octets id c d : id < 4294967296 -> c < 4294967296 -> 8 + blen d < 16777216 ->
  goaway_encode (mkGoAway id c d) = frame_octets 7 0 0 (octets4 id ++ octets4 c ++ d).
Proof.
  intros I C L. unfold goaway_encode, frame_octets. cbn [ga_last ga_code ga_debug]. rewrite fh_encode_octets by lia.
  rewrite !be_enc_4 by assumption. rewrite !blen_app. change (blen (octets4 id)) with 4. change (blen (octets4 c)) with 4.
  replace (4 + (4 + blen d)) with (8 + blen d) by lia. reflexivity.
Qed.


Lemma ping_inside t h x max t1 b p : frame_parse t h x max = (t1, Ok (FPing (mkPing b p))) -> blen p = 8.
Proof.
  unfold frame_parse. destruct (trim_padding h x) as [l1| | |]; try discriminate. destruct (fh_kind h) eqn:K; try discriminate.
  - intros H. injection H as _ H. destruct (data_new h l1); discriminate H.
  - destruct (headers_parse t (headers_new h []) l1 max) as [[t' hf] r]. intros H. injection H as _ H. destruct r; discriminate H.
  - intros H. injection H as _ H. destruct (priority_parse h l1); discriminate H.
  - intros H. injection H as _ H. destruct (reset_parse h l1); discriminate H.
  - intros H. injection H as _ H. destruct (settings_parse h l1); discriminate H.
  - intros H. injection H as _ H. unfold ping_parse in H. rewrite K in H. change (negb (kind_eqb KPing KPing)) with false in H. cbv iota in H.
    destruct (negb (fh_id h =? 0)); [discriminate H|]. destruct (N.eqb_spec (blen l1) 8) as [L|]; [|discriminate H].
    cbn [negb bind] in H. injection H as _ <-. exact L.
  - intros H. injection H as _ H. destruct (goaway_parse l1); discriminate H.
  - intros H. injection H as _ H. destruct (winupd_parse h l1); discriminate H.
Qed.
