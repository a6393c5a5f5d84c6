(** Calls of the API that no theorem before was about: questions to a header map (C14, C136), flags, parts and trailers of frames (C89), the number of entries of a table
    (C29), the setting for extended CONNECT (C36), the answer to a ping (C50), copies and lengths of messages (C79, C96). *)
From Coq Require Import Ascii String NArith ZArith Lia Bool List ZifyBool ZifyNat ZifyN.
From Verif Require Import Base S_Utf8 P_Base M_Std M_Helper M_Header S_Http1 S_Http1Api S_Map T_Header M_Url M_Http1 M_Ext S_Ext S_Build M_Hpack S_Hpack S_HpackApi T_Hpack M_Frame M_H2 M_Ws M_Build P_Build3 T_Build M_Access M_Write M_Object.
Import ListNotations.
Local Open Scope N_scope.

(** The value [v] is that of the first field of [h] whose name is taken for [n]. *)
Definition first_value (h : headers) (n v : bytes) : Prop :=
  exists a m b, h = a ++ (m, v) :: b /\ name_eq m n = true /\ Forall (fun nv => name_eq (fst nv) n = false) a.
Lemma get_first h n v : hm_get h n = Some v <-> first_value h n v.
Proof.
  split.
  - induction h as [|[m w] h IH]; cbn [hm_get]; [discriminate|]. destruct (name_eq m n) eqn:E.
    + intros K. injection K as ->. exists [], m, h. auto.
    + intros K. destruct (IH K) as (a & m' & b & -> & Q & F). exists ((m, w) :: a), m', b. split; [reflexivity|]. split; [exact Q|]. constructor; assumption.
  - intros (a & m & b & -> & Q & F). induction F as [|[m' w] a E F IH]; cbn [hm_get app]; [rewrite Q; reflexivity|]. cbn [fst] in E. rewrite E. exact IH.
Qed.
(** C14. Indexing gives the value of the first field of that name and panics if there is none; as text it is given if it is UTF-8. *)
Theorem C14_index : forall h n,
  (forall v, hm_index h n = Ok v <-> first_value h n v) /\ (hm_index h n = Panic <-> Forall (fun nv => name_eq (fst nv) n = false) h) /\
  (forall s, hm_get_str h n = Some s <-> first_value h n s /\ is_utf8 s).
Proof.
  intros h n. unfold hm_index, hm_get_value, hm_get_str. split; [|split].
  - intros v. rewrite <- get_first. destruct (hm_get h n); split; intros K; try discriminate K; injection K as ->; reflexivity.
  - split.
    + intros K. destruct (hm_get h n) eqn:G; [discriminate K|]. clear K. induction h as [|[m w] h IH]; constructor; cbn [hm_get fst] in *; destruct (name_eq m n); try discriminate G; auto.
    + intros F. replace (hm_get h n) with (@None bytes); [reflexivity|]. induction F as [|[m w] h E F IH]; cbn [hm_get fst] in *; [reflexivity|]. rewrite E. exact IH.
  - intros s. rewrite <- get_first. unfold value_as_string. destruct (hm_get h n) as [v|]; [|split; [discriminate|intros [K _]; discriminate K]].
    rewrite <- utf8_valid_iff. destruct (utf8_valid v) eqn:U; split.
    + intros K. injection K as <-. auto.
    + intros [K _]. exact K.
    + discriminate.
    + intros [K1 K2]. injection K1 as ->. congruence.
Qed.
Print Assumptions C14_index.
(** C136. The referer, the user agent and the cookie of a message: the first field of that name, as text. *)
Theorem C136_texts : forall h t,
  (hm_get_referer h = Some t <-> exists v, first_value h (str "referer") v /\ t = utf8_lossy v) /\
  (hm_get_user_agent h = Some t <-> exists v, first_value h (str "user-agent") v /\ t = utf8_lossy v) /\
  (hm_get_cookie h = Some t <-> exists v, first_value h (str "cookie") v /\ t = utf8_lossy v).
Proof.
  intros h t. assert (K : forall n, hm_get_lossy n h = Some t <-> exists v, first_value h (str n) v /\ t = utf8_lossy v).
  { intros n. unfold hm_get_lossy. split.
    - destruct (hm_get h (str n)) as [v|] eqn:G; [|discriminate]. intros K. injection K as <-. exists v. rewrite <- get_first. auto.
    - intros (v & F & ->). apply get_first in F. rewrite F. reflexivity. }
  split; [apply K|]. split; apply K.
Qed.
Print Assumptions C136_texts.
(** C89. The constants for flags are single bits, those that the tests look at. *)
Theorem C89_flag_constants : forall i,
  N.testbit flag_ack i = (i =? 0) /\ N.testbit flag_end_stream i = (i =? 0) /\ N.testbit flag_end_headers i = (i =? 2) /\
  N.testbit flag_padded i = (i =? 3) /\ N.testbit flag_priority i = (i =? 5).
Proof.
  assert (K : forall n i, N.testbit (2 ^ n) i = (i =? n)). { intros n i. rewrite N.pow2_bits_eqb. apply N.eqb_sym. }
  intros i. split; [exact (K 0 i)|]. split; [exact (K 0 i)|]. split; [exact (K 2 i)|]. split; [exact (K 3 i)|exact (K 5 i)].
Qed.
Print Assumptions C89_flag_constants.
(** Trailers: the fields and parts given, on that stream, with no flag; taking a frame apart gives its parts and fields; mapping the payload changes nothing else. *)
Theorem C89_whole : forall id p fs h f d,
  (let t := headers_trailers id p fs in hf_id t = id /\ hf_into_parts t = (p, fs) /\ hf_is_end_stream t = false /\ hf_is_end_headers t = false /\ hf_dep t = None) /\
  hf_into_parts h = (hf_parts h, hf_fields h) /\
  (let e := da_map f d in da_id e = da_id d /\ da_data e = f (da_data d) /\ da_flags e = da_flags d /\ da_is_end_stream e = da_is_end_stream d /\ da_is_padded e = da_is_padded d).
Proof. intros id p fs h f d. cbv zeta. repeat split. Qed.
Print Assumptions C89_whole.
(** C29. The number of entries: each counts for at least 32 octets. *)
Theorem C29_entries : forall t, decoder_reach t -> hi_len t = length (hi_to_vec t) /\ 32 * N.of_nat (hi_len t) <= hi_get_max t.
Proof.
  intros t R. split; [reflexivity|]. destruct (C29_decoder_invariant t R) as [A B]. unfold hi_len. fold (hi_to_vec t).
  enough (32 * N.of_nat (length (hi_to_vec t)) <= fold_right (fun f n => blen (fst f) + blen (snd f) + 32 + n) 0 (hi_to_vec t)) by lia. clear.
  induction (hi_to_vec t) as [|x l IH]; cbn [length fold_right]; lia.
Qed.
Print Assumptions C29_entries.
(** C36. Extended CONNECT is known once the setting is there, and on unless it is 0. *)
Theorem C36_extended : forall s b, is_extended_connect_protocol_enabled s = Some b <->
  exists n, st_enable_connect_protocol s = Some n /\ (b = true <-> n <> 0).
Proof.
  intros s b. unfold is_extended_connect_protocol_enabled. destruct (st_enable_connect_protocol s) as [n|]; cbn [option_map].
  - split; [intros K; injection K as <-; exists n; split; [reflexivity|destruct (N.eqb_spec n 0); cbn; split; intros Q; congruence]|].
    intros (n' & K & Q). injection K as <-. f_equal. destruct b, (N.eqb_spec n 0); cbn; try reflexivity; exfalso; [destruct Q as [Q _]; exact (Q eq_refl e)|destruct Q as [_ Q]; discriminate (Q n0)].
  - split; [discriminate|intros (n & K & _); discriminate K].
Qed.
Print Assumptions C36_extended.
(** C50. A ping, and nothing else, can be made a pong, which has its payload. *)
Theorem C50_pong : forall m p, into_pong m = Some p <-> m_op m = TPing /\ m_op p = TPong /\ m_payload p = m_payload m /\ m_code p = m_code m.
Proof.
  intros [o c l] [o' c' l']. unfold into_pong. cbn. split.
  - destruct o; try discriminate. intros K. injection K as <- <- <-. auto.
  - intros (-> & -> & -> & ->). reflexivity.
Qed.
Print Assumptions C50_pong.
(** C79. The copy of a request that replace_clone returns has its head and body and at most the one extension that can be copied. *)
Theorem C79_request_copy : forall (V B : Type) IX (r : reqo V B) m, built (ro_ext r) m ->
  ro_head (req_replace_clone IX r) = ro_head r /\ ro_body (req_replace_clone IX r) = ro_body r /\
  ext_get (ro_ext (req_replace_clone IX r)) IX = m IX /\ forall k, k <> IX -> ext_get (ro_ext (req_replace_clone IX r)) k = None.
Proof.
  intros V B IX [h e b] m K. cbn in K |- *. split; [reflexivity|]. split; [reflexivity|].
  destruct (C79_replace_clone request V B IX h e m b b K) as (e' & E & A & D). injection E as <-. auto.
Qed.
Print Assumptions C79_request_copy.
(** C96. The body length of a request or response: the number in its first Content-Length field, and 0 without such a field. *)
Theorem C96_lengths : forall (V B : Type) (r : reqo V B) (p : respo V B),
  (forall v n, first_value (q_header (ro_head r)) (str "content-length") v -> decimal v n -> n < 2 ^ 63 -> req_body_len r = Ok (Z.of_N n)) /\
  (Forall (fun nv => name_eq (fst nv) (str "content-length") = false) (q_header (ro_head r)) -> req_body_len r = Ok 0%Z) /\
  (forall v n, first_value (p_header (po_head p)) (str "content-length") v -> decimal v n -> n < 2 ^ 63 -> resp_body_len p = Ok (Z.of_N n)) /\
  (Forall (fun nv => name_eq (fst nv) (str "content-length") = false) (p_header (po_head p)) -> resp_body_len p = Ok 0%Z).
Proof.
  assert (K : forall h v n, first_value h (str "content-length") v -> decimal v n -> n < 2 ^ 63 -> hm_body_len h = Ok (Z.of_N n)).
  { intros h v n F D L. apply (C17_body_length h v n); [apply get_first, F|exact D|exact L]. }
  assert (Q : forall h, Forall (fun nv => name_eq (fst nv) (str "content-length") = false) h -> hm_body_len h = Ok 0%Z).
  { intros h F. apply C17_no_length. apply (proj1 (proj2 (C14_index h (str "content-length")))) in F. unfold hm_index, hm_get_value in F. destruct (hm_get h _); [discriminate F|reflexivity]. }
  intros V B r p. split; [|split; [|split]]; [intros v n; apply K|apply Q|intros v n; apply K|apply Q].
Qed.
Print Assumptions C96_lengths.
Example first_value_case : first_value [(str "Accept", str "x"); (str "Cookie", str "a=1"); (str "cookie", str "b=2")] (str "cookie") (str "a=1").
Proof. exists [(str "Accept", str "x")], (str "Cookie"), [(str "cookie", str "b=2")]. split; [reflexivity|]. split; [reflexivity|repeat constructor]. Qed.
Example C79_request_copy_case : exists (e : extensions N) m, built e m /\ m 1 = Some 9 /\ m 5 = Some 7.
Proof. exact C79_nonvacuous. Qed.
