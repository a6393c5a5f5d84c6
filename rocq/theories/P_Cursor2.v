(** Lemmas for C105, continued: WebSocket, frame headers, URL schemes and header blocks. *)
From Coq Require Import Ascii String NArith ZArith Lia Bool List ZifyBool ZifyNat ZifyN.
From Verif Require Import Base S_Utf8 P_Base M_Std M_Helper S_Http1 P_Helper M_Header M_Url M_Http1 P_Reject S_Reject S_UrlAll P_UrlAll M_Cursor S_Cursor P_Cursor M_Ws S_Ws S_WsApi P_Ws S_WsAll P_WsAll.
Import ListNotations.
Local Open Scope N_scope.

(** ** WebSocket *)
Lemma get_agree n l : agree (c_get n l) (try_get n l).
Proof. unfold c_get, try_get. destruct (take_n n l) as [[a r]|]; reflexivity. Qed.
Lemma len_agree b l : agree (c_len b l) (read_len b l).
Proof.
  unfold c_len, read_len. cbv zeta. destruct (N.land b 127 <=? 125); [reflexivity|]. destruct (N.land b 127 =? 126).
  - apply agree_bind; [apply get_agree|]. intros n r. destruct (n <=? 125); reflexivity.
  - apply agree_bind; [apply get_agree|]. intros n r. destruct (n <=? 65535); reflexivity.
Qed.
Lemma key_agree b l : agree (c_key b l) (read_mask b l).
Proof.
  unfold c_key, read_mask. destruct (N.land b 128 =? 128); [|reflexivity]. apply agree_bind; [apply get_agree|]. intros k1 l1.
  apply agree_bind; [apply get_agree|]. intros k2 l2. apply agree_bind; [apply get_agree|]. intros k3 l3. apply agree_bind; [apply get_agree|]. intros k4 l4. reflexivity.
Qed.
Lemma ws_header_agree l : agree (c_ws_header l) (read_header l).
Proof.
  unfold c_ws_header, read_header. apply agree_bind; [apply get_agree|]. intros b0 l1. apply agree_bind; [apply get_agree|]. intros b1 l2. cbv zeta.
  apply agree_bind; [apply len_agree|]. intros n l3. destruct (_ && _); [reflexivity|]. destruct (_ && _); [reflexivity|].
  apply agree_bind; [apply key_agree|]. intros k l4. reflexivity.
Qed.
Lemma frame_agree limit l : agree (c_frame limit l) (read_frame limit l).
Proof.
  rewrite read_frame_eq. unfold c_frame. apply agree_bind; [apply ws_header_agree|]. intros h l1. destruct (match limit with Some _ => _ | None => _ end); [reflexivity|].
  destruct (take_N (wh_len h) l1) as [[data l2]|]; [apply agree_look|reflexivity].
Qed.
Lemma agree_inv {A} (m : out A) p a r : agree m p -> m = (r, Ok a) -> p = Ok (a, r).
Proof. intros H ->. destruct p as [[a' r']|e| |]; cbn [agree snd] in H; congruence. Qed.
Lemma agree_err {A} (m : out A) p e r : agree m p -> m = (r, Err e) -> p = Err e.
Proof. intros H ->. destruct p as [[a' r']|e'| |]; cbn [agree snd] in H; congruence. Qed.

Lemma get_tail n l : tail_of l (fst (c_get n l)).
Proof.
  unfold c_get. destruct (try_get_cases n l) as [(a & r & -> & La & G)|[_ G]]; unfold try_get in G.
  - destruct (take_n n (a ++ r)) as [[a' r']|]; [|discriminate]. injection G as _ ->. exists a. reflexivity.
  - destruct (take_n n l) as [[a' r']|]; [discriminate|]. apply tail_refl.
Qed.
Lemma len_tail b l : tail_of l (fst (c_len b l)).
Proof.
  unfold c_len. cbv zeta. destruct (N.land b 127 <=? 125); [apply tail_refl|]. destruct (N.land b 127 =? 126);
    (apply tail_bind; [apply get_tail|intros; apply tail_refl]).
Qed.
Lemma key_tail b l : tail_of l (fst (c_key b l)).
Proof.
  unfold c_key. destruct (N.land b 128 =? 128); [|apply tail_refl]. repeat (apply tail_bind; [apply get_tail|intros ? ?]). apply tail_refl.
Qed.
Lemma ws_header_tail l : tail_of l (fst (c_ws_header l)).
Proof.
  unfold c_ws_header. apply tail_bind; [apply get_tail|]. intros b0 l1. apply tail_bind; [apply get_tail|]. intros b1 l2. cbv zeta.
  apply tail_bind; [apply len_tail|]. intros n l3. destruct (_ && _); [apply tail_refl|]. destruct (_ && _); [apply tail_refl|].
  apply tail_bind; [apply key_tail|]. intros k l4. apply tail_refl.
Qed.
Lemma frame_tail limit l : tail_of l (fst (c_frame limit l)).
Proof.
  unfold c_frame. apply tail_bind; [apply ws_header_tail|]. intros h l1. destruct (match limit with Some _ => _ | None => _ end); [apply tail_refl|].
  destruct (take_N (wh_len h) l1) as [[data l2]|] eqn:T; [|apply tail_refl]. apply take_N_some in T as [-> _]. exists data. reflexivity.
Qed.

Lemma c_get_1 b l : c_get 1 (b :: l) = (l, Ok b).
Proof. apply (agree_ok _ _ _ _ (get_agree 1 _)). apply try_get_1. Qed.
Lemma c_get_short n l : (length l < n)%nat -> c_get n l = (l, Err (EIo UnexpectedEof)).
Proof.
  intros H. unfold c_get. destruct (try_get_cases n l) as [(a & r & -> & La & _)|[_ G]]; [rewrite app_length in H; lia|].
  unfold try_get in G. destruct (take_n n l) as [[a r]|]; [discriminate|reflexivity].
Qed.
Lemma c_lead fin r1 r2 r3 op m n r : op < 16 -> n < 2 ^ 64 ->
  c_ws_header (lead fin r1 r2 r3 op m n ++ r) =
  if (8 <=? op) && (126 <=? n) then (r, Err (EWs (DataFrameError "Control frame length too long")))
  else if (8 <=? op) && negb fin then (r, Err (EWs (ProtocolError "Illegal fragmented control frame")))
  else c_bind (c_key (bit m 128 + spec_len7 n) r) (fun key l4 => (l4, Ok (hdr_of fin r1 r2 r3 op key n))).
Proof.
  intros Hop Hn. unfold c_ws_header, lead. rewrite <- app_assoc. cbn [app].
  rewrite c_get_1; cbn [c_bind]. rewrite c_get_1; cbn [c_bind]. cbv zeta.
  change (bit fin 128 + bit r1 64 + bit r2 32 + bit r3 16) with (flagbits fin r1 r2 r3).
  destruct (flags_facts fin r1 r2 r3 op Hop) as (_ & Ho & Ht & Hf & _). rewrite Ho, Ht.
  rewrite (agree_ok _ _ _ _ (len_agree _ _) (read_len_ok m n r Hn)). cbn [c_bind]. rewrite Hf. reflexivity.
Qed.
Lemma c_key_short l7 x : l7 < 128 -> (length x < 4)%nat -> c_key (bit true 128 + l7) x = ([], Err more_data).
Proof.
  intros H7 L. destruct (octet1_parts true l7 H7) as [_ E8]. unfold c_key. rewrite E8. cbn [bit]. change (128 =? 128) with true. cbv iota.
  destruct x as [|a [|b [|c [|d x]]]]; try (cbn [length] in L; lia); reflexivity.
Qed.
Lemma c_two b0 m l7 x : l7 < 128 -> c_ws_header (b0 :: bit m 128 + l7 :: x) =
  c_bind (c_len (bit m 128 + l7) x) (fun len l3 =>
  if (8 <=? N.land b0 15) && (126 <=? len) then (l3, Err (EWs (DataFrameError "Control frame length too long")))
  else if (8 <=? N.land b0 15) && negb (fcontains (flags_truncate b0) FIN) then (l3, Err (EWs (ProtocolError "Illegal fragmented control frame")))
  else c_bind (c_key (bit m 128 + l7) l3) (fun mask l4 =>
    (l4, Ok {| wh_flags := flags_truncate b0; wh_opcode := N.land b0 15; wh_mask := mask; wh_len := len |}))).
Proof. intros _. unfold c_ws_header. rewrite c_get_1; cbn [c_bind]. rewrite c_get_1; cbn [c_bind]. reflexivity. Qed.
Lemma c_len_126 m x : c_len (bit m 128 + 126) x =
  c_bind (c_get 2 x) (fun len r => (r, if len <=? 125 then Err (EWs (DataFrameError "Invalid data frame length")) else Ok len)).
Proof. destruct (octet1_parts m 126 ltac:(lia)) as [E7 _]. unfold c_len. rewrite E7. reflexivity. Qed.
Lemma c_len_127 m x : c_len (bit m 128 + 127) x =
  c_bind (c_get 8 x) (fun len r => (r, if len <=? 65535 then Err (EWs (DataFrameError "Invalid data frame length")) else Ok len)).
Proof. destruct (octet1_parts m 127 ltac:(lia)) as [E7 _]. unfold c_len. rewrite E7. reflexivity. Qed.
Lemma head_left_run l e r : head_left l e r -> c_ws_header l = (r, Err e).
Proof.
  intros H. destruct H as [|b|b0 m x L|b0 m x L|b0 m n r Hn|b0 m n r Hn|fin r1 r2 r3 op m n r Ho Hn|r1 r2 r3 op m n r Ho Hn|fin r1 r2 r3 op n x Ho Hn Hc L].
  - reflexivity.
  - reflexivity.
  - rewrite c_two by lia. rewrite c_len_126, c_get_short by exact L. reflexivity.
  - rewrite c_two by lia. rewrite c_len_127, c_get_short by exact L. reflexivity.
  - rewrite c_two by lia. rewrite c_len_126. unfold c_get. rewrite (take_n_app 2 [0; n] r eq_refl). cbn [c_bind].
    change (be_dec [0; n]) with ((0 * 256 + 0) * 256 + n). replace ((0 * 256 + 0) * 256 + n <=? 125) with true by lia. reflexivity.
  - rewrite c_two by lia. rewrite c_len_127. unfold c_get. rewrite (take_n_app 8 [0; 0; 0; 0; 0; 0; n / 256; n mod 256] r eq_refl). cbn [c_bind].
    replace (be_dec [0; 0; 0; 0; 0; 0; n / 256; n mod 256] <=? 65535) with true; [reflexivity|]. symmetry. apply N.leb_le.
    unfold be_dec. cbn [be_dec_acc]. pose proof (N.div_mod n 256). lia.
  - rewrite c_lead by lia. replace ((8 <=? op) && (126 <=? n)) with true by lia. reflexivity.
  - rewrite c_lead by (change (2 ^ 64) with 18446744073709551616; lia). replace ((8 <=? op) && (126 <=? n)) with false by lia.
    replace ((8 <=? op) && negb false) with true by (cbn [negb]; lia). reflexivity.
  - rewrite c_lead by lia. unfold control_ok in Hc.
    replace ((8 <=? op) && (126 <=? n)) with false.
    2: { destruct (N.leb_spec 8 op) as [G|G]; [|reflexivity]. destruct (Hc G) as [G' _]. cbn [andb]. symmetry. lia. }
    replace ((8 <=? op) && negb fin) with false.
    2: { destruct (N.leb_spec 8 op) as [G|G]; [|reflexivity]. destruct (Hc G) as [_ G']. rewrite G'. reflexivity. }
    rewrite c_key_short by (try apply spec_len7_lt; exact L). reflexivity.
Qed.
Lemma head_bad_left l e : head_bad l e -> exists r, head_left l e r.
Proof. intros [|b|b0 m x L|b0 m x L|b0 m n r Hn|b0 m n r Hn|fin r1 r2 r3 op m n r Ho Hn|r1 r2 r3 op m n r Ho Hn|fin r1 r2 r3 op n x Ho Hn Hc L]; eexists; constructor; assumption. Qed.
Lemma head_left_iff l e r : bytes_ok l -> (c_ws_header l = (r, Err e) <-> head_left l e r).
Proof.
  intros Hl. split; [|apply head_left_run]. intros H. pose proof (agree_err _ _ _ _ (ws_header_agree l) H) as B. apply header_bad_iff in B; [|exact Hl].
  apply head_bad_left in B as [r' B]. pose proof (head_left_run _ _ _ B) as K. rewrite H in K. injection K as ->. exact B.
Qed.
Lemma frame_left_run limit l e r : frame_left limit l e r -> c_frame limit l = (r, Err e).
Proof.
  intros H. unfold c_frame. destruct H as [l e r H|lim fin r1 r2 r3 op key n r E Hn Ho Hc Hk|fin r1 r2 r3 op key n x HL Hn Ho Hc Hk L].
  - rewrite (head_left_run _ _ _ H). reflexivity.
  - assert (R : read_header (spec_header fin r1 r2 r3 op key n ++ r) = Ok (hdr_of fin r1 r2 r3 op key n, r)) by (apply read_header_spec; assumption || lia).
    rewrite (agree_ok _ _ _ _ (ws_header_agree _) R). cbn [c_bind hdr_of wh_len]. rewrite E. replace (lim <? n) with true by lia. reflexivity.
  - assert (R : read_header (spec_header fin r1 r2 r3 op key n ++ x) = Ok (hdr_of fin r1 r2 r3 op key n, x)) by (apply read_header_spec; assumption).
    rewrite (agree_ok _ _ _ _ (ws_header_agree _) R). cbn [c_bind hdr_of wh_len].
    replace (match limit with Some lim => lim <? n | None => false end) with false.
    2: { destruct limit as [lim|]; [|reflexivity]. specialize (HL lim eq_refl). lia. }
    rewrite (proj2 (take_N_none n x)) by exact L. reflexivity.
Qed.
Lemma frame_left_iff limit l e r : bytes_ok l -> (c_frame limit l = (r, Err e) <-> frame_left limit l e r).
Proof.
  intros Hl. split; [|apply frame_left_run]. intros H. pose proof (agree_err _ _ _ _ (frame_agree limit l) H) as B. apply frame_bad_iff in B; [|exact Hl].
  assert (B' : exists r', frame_left limit l e r').
  { destruct B as [l e B|lim fin r1 r2 r3 op key n r0 E Hn Ho Hc Hk|fin r1 r2 r3 op key n x HL Hn Ho Hc Hk L].
    - apply head_bad_left in B as [r' B]. exists r'. apply wl_head. exact B.
    - exists r0. apply (wl_limit limit lim); assumption.
    - exists x. apply wl_data; assumption. }
  destruct B' as [r' B']. pose proof (frame_left_run _ _ _ _ B') as K. rewrite H in K. injection K as ->. exact B'.
Qed.
(** A failed call that was given octets has taken some of them. *)
Lemma lead_two fin r1 r2 r3 op m n : (2 <= length (lead fin r1 r2 r3 op m n))%nat.
Proof. unfold lead. rewrite app_length. cbn [length]. lia. Qed.
Lemma header_two fin r1 r2 r3 op (key : option mkey) n : (2 <= length (spec_header fin r1 r2 r3 op key n))%nat.
Proof. pose proof (lead_key fin r1 r2 r3 op key n []) as E. rewrite !app_nil_r in E. rewrite E, app_length. pose proof (lead_two fin r1 r2 r3 op (match key with Some _ => true | None => false end) n). lia. Qed.
Lemma frame_left_less limit l e r : frame_left limit l e r -> l <> [] -> (length r < length l)%nat.
Proof.
  intros H L0. destruct H as [l e r H|lim fin r1 r2 r3 op key n r E Hn Ho Hc Hk|fin r1 r2 r3 op key n x HL Hn Ho Hc Hk L].
  - destruct H as [|b|b0 m x L|b0 m x L|b0 m n r Hn|b0 m n r Hn|fin r1 r2 r3 op m n r Ho Hn|r1 r2 r3 op m n r Ho Hn|fin r1 r2 r3 op n x Ho Hn Hc L].
    + contradiction.
    + cbn. lia.
    + cbn [length]. lia.
    + cbn [length]. lia.
    + cbn [length app]. lia.
    + cbn [length app]. lia.
    + rewrite app_length. pose proof (lead_two fin r1 r2 r3 op m n). lia.
    + rewrite app_length. pose proof (lead_two false r1 r2 r3 op m n). lia.
    + rewrite app_length. pose proof (lead_two fin r1 r2 r3 op true n). cbn [length]. lia.
  - rewrite app_length. pose proof (header_two fin r1 r2 r3 op key n). lia.
  - rewrite app_length. pose proof (header_two fin r1 r2 r3 op key n). lia.
Qed.
Lemma frame_left_taken limit l e r : bytes_ok l -> l <> [] -> c_frame limit l = (r, Err e) -> tail_of l r /\ (length r < length l)%nat.
Proof.
  intros B N0 H. split; [pose proof (frame_tail limit l) as T; rewrite H in T; exact T|]. apply (frame_left_less limit l e); [apply frame_left_iff; assumption|exact N0].
Qed.
Lemma spec_frame_least fin r1 r2 r3 op key data : (length (spec_frame fin r1 r2 r3 op None data) <= length (spec_frame fin r1 r2 r3 op key data))%nat.
Proof.
  unfold spec_frame, spec_header. rewrite !app_length. destruct key as [[[[a b] c] d]|]; [|lia]. cbn [length].
  assert (length (spec_mask a b c d data) = length data) by (pose proof (spec_mask_length a b c d data) as K; unfold blen in K; lia). lia.
Qed.
Lemma frame_repeat limit fin r1 r2 r3 o data p s r e x :
  bytes_ok (p ++ s ++ x) -> spec_frame fin r1 r2 r3 (opcode_u8 o) None data = p ++ s -> control_ok fin (opcode_u8 o) (blen data) -> blen data < 2 ^ 64 ->
  (forall lim, limit = Some lim -> blen data <= lim) -> c_frame limit p = (r, Err e) ->
  (c_frame limit (r ++ s ++ x) = (x, Ok {| d_fin := fin; d_rsv := (r1, r2, r3); d_op := o; d_data := data |}) <-> p = []).
Proof.
  intros B E Hc Hn HL F. split.
  - intros H. apply (agree_inv _ _ _ _ (frame_agree _ _)) in H.
    assert (R : read_dataframe (r ++ s ++ x) = Ok ({| d_fin := fin; d_rsv := (r1, r2, r3); d_op := o; d_data := data |}, x)).
    { destruct limit as [lim|]; cbn [read_frame] in H; [|exact H]. apply read_limit_ok in H as [H _]. exact H. }
    destruct p as [|b p]; [reflexivity|exfalso]. apply frame_left_iff in F; [|apply bytes_ok_app in B as [B _]; exact B].
    pose proof (frame_left_less _ _ _ _ F ltac:(discriminate)) as L. pose proof (frame_left_run _ _ _ _ F) as F'.
    assert (T : tail_of (b :: p) r) by (pose proof (frame_tail limit (b :: p)) as T; rewrite F' in T; exact T).
    destruct T as [a T]. assert (B' : bytes_ok (r ++ s ++ x)) by (rewrite T, <- app_assoc in B; apply bytes_ok_app in B as [_ B]; exact B).
    apply (read_dataframe_inv _ _ _ B') in R as (key & R & _). cbn [d_fin d_rsv d_op d_data fst snd] in R. rewrite app_assoc in R. apply app_inv_tail in R.
    apply (f_equal (@length N)) in R, E. rewrite app_length in R, E. pose proof (spec_frame_least fin r1 r2 r3 (opcode_u8 o) key data). lia.
  - intros ->. assert (r = []) as -> by (cbv in F; congruence). cbn [app] in *. rewrite <- E.
    apply (agree_ok _ _ _ _ (frame_agree _ _)). pose proof (read_dataframe_spec fin r1 r2 r3 o None data x Hc Hn) as S.
    destruct limit as [lim|]; cbn [read_frame]; [|exact S]. apply read_limit_ok. split; [exact S|]. cbn [d_data]. apply HL. reflexivity.
Qed.
