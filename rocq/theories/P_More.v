(** Lemmas that make partial statements exact: hashing of names, padded DATA, what received frames report,
    reading of values in the two storages, Display. *)
From Coq Require Import Ascii String NArith ZArith Lia Bool List ZifyBool ZifyNat ZifyN.
From Verif Require Import Base S_Utf8 P_Base M_Std M_Helper M_Header M_Url M_Http1 S_Http1 S_Map P_Map S_Http1Api P_Http1 P_Msg
  M_Hpack M_Frame M_H2 S_Frame S_H2Api P_Frame P_Ctl P_Data P_H2All P_Tight S_H2Msg M_Build S_Build P_Build3 S_HpackAll P_Lossy.
Import ListNotations.
Local Open Scope N_scope.
Ltac Zify.zify_post_hook ::= Z.div_mod_to_equations.

(** ** Names *)
Lemma fold_clash a : forall b, fold_name a = fold_name b -> clash_free a b.
Proof.
  induction a as [|x a IH]; intros [|y b] H; try discriminate; intros i u v Hu Hv D; [destruct i; discriminate Hu|].
  unfold fold_name in H. cbn [map] in H. injection H as H1 H2. destruct i as [|i]; cbn [nth_error] in Hu, Hv; [|exact (IH b H2 i u v Hu Hv D)].
  injection Hu as <-. injection Hv as <-. unfold fold_byte in H1. unfold alpha, upper, lower.
  destruct ((65 <=? x) && (x <=? 90)) eqn:E1, ((65 <=? y) && (y <=? 90)) eqn:E2; lia.
Qed.
Lemma hash_exact a b : Forall tchar a -> Forall tchar b -> name_eq a b = true ->
  (name_hash_input a = name_hash_input b <-> clash_free a b).
Proof.
  intros Ha Hb E. rewrite !hash_is_fold. split; [apply fold_clash|]. intros C. exact (clash_name a b Ha Hb C E).
Qed.

(** ** DATA with the PADDED flag *)
Definition pad_fits (c : bytes) : Prop := hd 0 c <= blen c.
Lemma recv_padded_piece t L f id c rest : blen c < 16777216 -> 0 < id < 2147483648 -> defined_flags f -> is_padded f = true ->
  recv t L (frame_octets 0 f id c ++ rest) =
  (t, if blen c <? hd 0 c then Err (EHttp2 (TooMuchPadding (hd 0 c))) else Ok (FData (mkData id (tl c) f), rest)).
Proof.
  intros B I D P. destruct c as [|p l].
  - rewrite recv_octets by (exact D || lia). unfold lift, frame_parse, trim_padding. cbn [fh_flag]. rewrite P.
    cbn [kind_new fh_kind fst snd]. unfold data_new. cbn [fh_id fh_flag hd tl]. destruct (N.eqb_spec id 0); [lia|reflexivity].
  - cbn [hd tl]. rewrite blen_cons in B. rewrite recv_padded_data by (assumption || lia). rewrite blen_cons, (N.add_comm 1). reflexivity.
Qed.
Lemma padded_received L t f id last cs : 0 < id < 2147483648 -> defined_flags f -> is_padded f = true ->
  Forall (fun c => blen c < 16777216) cs -> blen last < 16777216 -> Forall pad_fits (cs ++ [last]) ->
  received L t (concat (map (frame_octets 0 (unset_end_stream f) id) cs) ++ frame_octets 0 f id last) t
    (map (fun c => FData (mkData id (tl c) (unset_end_stream f))) cs ++ [FData (mkData id (tl last) f)]).
Proof.
  intros I D P F La G. destruct (unset_defined f D) as (D' & P' & _). rewrite P in P'. induction F as [|c cs Hc _ IH]; cbn [map concat app] in *.
  - inversion G as [|? ? K _]. unfold pad_fits in K. rewrite <- (app_nil_r (frame_octets _ _ _ _)). econstructor; [|constructor].
    rewrite recv_padded_piece by assumption. replace (blen last <? hd 0 last) with false by lia. reflexivity.
  - inversion G as [|? ? K G']. unfold pad_fits in K. rewrite <- app_assoc. econstructor; [|exact (IH G')].
    rewrite recv_padded_piece by assumption. replace (blen c <? hd 0 c) with false by lia. reflexivity.
Qed.
Lemma received_fun L t l t1 f1 : received L t l t1 f1 -> forall t2 f2, received L t l t2 f2 -> t1 = t2 /\ f1 = f2.
Proof.
  induction 1 as [t|t l t1 f r t2 fs E _ IH]; intros t3 f2 H.
  - inversion H as [|? ? ? ? ? ? ? E]; subst; [auto|]. vm_compute in E. discriminate E.
  - inversion H as [|? ? ? ? ? ? ? E2 R2]; subst; [vm_compute in E; discriminate E|]. rewrite E in E2. injection E2 as <- <- <-.
    destruct (IH _ _ R2) as [-> ->]. auto.
Qed.
Definition data_of (f : frame) : bytes := match f with FData d => da_data d | _ => [] end.
Lemma padded_some L t f id last cs t' fs : 0 < id < 2147483648 -> defined_flags f -> is_padded f = true ->
  Forall (fun c => blen c < 16777216) cs -> blen last < 16777216 ->
  received L t (concat (map (frame_octets 0 (unset_end_stream f) id) cs) ++ frame_octets 0 f id last) t' fs -> Forall pad_fits (cs ++ [last]).
Proof.
  intros I D P F La. destruct (unset_defined f D) as (D' & P' & _). rewrite P in P'. revert fs.
  induction F as [|c cs Hc _ IH]; intros fs H; cbn [map concat app] in *.
  - constructor; [|constructor]. rewrite <- (app_nil_r (frame_octets _ _ _ _)) in H. inversion H as [|? ? ? ? ? ? ? E R]; subst.
    rewrite recv_padded_piece in E by assumption. unfold pad_fits. destruct (N.ltb_spec (blen last) (hd 0 last)); [discriminate E|lia].
  - rewrite <- app_assoc in H. inversion H as [|? ? ? ? ? ? ? E R]; subst.
    rewrite recv_padded_piece in E by assumption. destruct (N.ltb_spec (blen c) (hd 0 c)) as [K|K]; [discriminate E|].
    injection E as <- _ <-. constructor; [exact K|]. exact (IH _ R).
Qed.
Lemma padded_lost cs (last : bytes) : Forall (fun c => c <> []) (cs ++ [last]) ->
  blen (concat (map (@tl N) (cs ++ [last]))) + N.of_nat (length (cs ++ [last])) = blen (concat (cs ++ [last])).
Proof.
  intros H. induction H as [|c l Hc _ IH]; [reflexivity|]. cbn [map concat length]. rewrite !blen_app. destruct c as [|x c]; [contradiction|].
  rewrite blen_cons. cbn [tl]. lia.
Qed.

(** ** What a received frame reports *)
Lemma setting_loop_flags n : forall s l s', setting_loop n s l = Ok s' -> st_flags s' = st_flags s.
Proof.
  induction n as [|n IH]; intros s l s' H; cbn [setting_loop] in H; [injection H as <-; reflexivity|].
  apply bind_ok in H as ([o r] & _ & H). apply bind_ok in H as (s1 & A & H). rewrite (IH _ _ _ H).
  unfold setting_apply in A. destruct o as [[]|]; repeat match type of A with context [match ?b with _ => _ end] => destruct b end;
    try discriminate A; injection A as <-; reflexivity.
Qed.
Lemma parse_reports t h l L t' f : frame_parse t h l L = (t', Ok f) ->
  frame_stream_id f = match fh_kind h with KPriority | KGoAway => 0 | _ => fh_id h end /\
  frame_flags f = match fh_kind h with
                  | KData | KHeaders | KPushPromise => fh_flag h
                  | KSettings => N.land (fh_flag h) 1
                  | _ => 0
                  end.
Proof.
  intros H. pose proof (parse_kind _ _ _ _ _ _ H) as K. rewrite <- K. split.
  - destruct (kind_of f) eqn:E; try (destruct f; discriminate E || reflexivity); try (apply (parse_stream_id _ _ _ _ _ _ H); rewrite <- K; discriminate).
  - destruct (kind_of f) eqn:E; try (destruct f; discriminate E || reflexivity); try (apply (parse_flags _ _ _ _ _ _ H); rewrite <- K; auto).
    destruct f as [| | | |s| | | |]; try discriminate E. cbn [frame_flags]. unfold frame_parse in H.
    destruct (trim_padding h l) as [l1| | |]; try discriminate H. rewrite <- K in H.
    destruct (settings_parse h l1) as [s1| | |] eqn:P; try discriminate H. injection H as _ ->. unfold settings_parse in P.
    destruct (negb _); [discriminate P|]. destruct (negb _); [discriminate P|]. unfold is_ack, flag_contains in P.
    destruct (N.eqb_spec (N.land (fh_flag h) ACK) ACK) as [Q|Q].
    + destruct l1; [|discriminate P]. injection P as <-. symmetry. exact Q.
    + unfold parse_setting in P. destruct (negb _); [discriminate P|]. apply setting_loop_flags in P. rewrite P. cbn [settings_default st_flags].
      change ACK with 1 in Q. assert (B : N.land (fh_flag h) 1 = N.b2n (N.testbit (fh_flag h) 0)). { change 1 with (N.ones 1). rewrite N.land_ones.  change (2 ^ 1) with 2. rewrite N.bit0_mod. reflexivity. }
      rewrite B in *. destruct (N.testbit (fh_flag h) 0); [contradiction Q; reflexivity|reflexivity].
Qed.

(** ** Values *)
Lemma usize_storage v : (forall n, value_usize_stand v = Ok n <-> value_usize v = Ok n) <->
  v <> [] /\ ~ exists w n, v = 43 :: w /\ decimal w n /\ n < 2 ^ 64.
Proof.
  split.
  - intros H. split.
    + intros ->. specialize (H 0). destruct H as [_ H]. discriminate (H eq_refl).
    + intros (w & n & -> & D & B). assert (A : value_usize_stand (43 :: w) = Ok n) by (apply usize_stand_exact; split; [right; exists w; auto|exact B]).
      apply H, usize_exact in A as (A & _). inversion A as [|? ? K _]. unfold digit in K. lia.
  - intros [N P] n. rewrite usize_stand_exact, usize_exact. split.
    + intros [[(_ & D & ->)|(w & -> & D)] B]; [auto|]. contradiction P. exists w, n. auto.
    + intros (D & -> & B). split; [left; split; auto|exact B].
Qed.

(** ** Display *)
Lemma broken_short a l : broken a l -> (length a <= 3)%nat.
Proof.
  intros (N & [E|[_ (c & y & S & E)]] & _); [lia|]. assert (L : (length (utf8_enc c) <= 4)%nat).
  { unfold utf8_enc. repeat (destruct (_ <? _)); cbn [length]; lia. }
  rewrite E, app_length in L. destruct y as [|b y]; [|cbn [length] in L; lia].
  exfalso. rewrite app_nil_r in E. apply (N c l S). rewrite E. reflexivity.
Qed.
Lemma lossy_longer l : (length l <= length (utf8_lossy l))%nat.
Proof.
  pose proof (lossy_spec l) as H. remember (utf8_lossy l) as s eqn:E. clear E. induction H as [|c l s _ _ IH|a l s B _ IH]; [lia|..]; rewrite !app_length; [lia|].
  pose proof (broken_short a l B). change (length (utf8_enc 65533)) with 3%nat. lia.
Qed.
Lemma lossy_same l : utf8_lossy l = l <-> is_utf8 l.
Proof. rewrite <- utf8_valid_iff. split; [intros H; rewrite <- H; apply utf8_lossy_ok|apply utf8_lossy_valid]. Qed.
Lemma app_same_length {A} (a b c d : list A) : a ++ b = c ++ d -> length a = length c -> a = c /\ b = d.
Proof.
  revert c. induction a as [|x a IH]; intros [|y c] H L; try discriminate L; [auto|]. cbn [app] in H. injection H as <- H. cbn [length] in L.
  destruct (IH c H) as [-> ->]; [lia|auto].
Qed.
Lemma line_encoded n v : encode_header_line (n, v) = n ++ [58; 32] ++ v ++ crlf.
Proof. reflexivity. Qed.
Lemma line_displayed n v : header_line_display (n, v) = n ++ [58; 32] ++ utf8_lossy v ++ crlf.
Proof. reflexivity. Qed.
Lemma lines_longer h : (length (concat (map encode_header_line h)) <= length (concat (map header_line_display h)))%nat.
Proof.
  induction h as [|[n v] h IH]; [apply le_n|]. cbn [map concat]. rewrite line_encoded, line_displayed, !app_length. pose proof (lossy_longer v). lia.
Qed.
Lemma lines_same h r : concat (map header_line_display h) ++ r = concat (map encode_header_line h) ++ r -> Forall (fun nv => is_utf8 (snd nv)) h.
Proof.
  intros H. apply app_inv_tail in H. induction h as [|[n v] h IH]; [constructor|]. cbn [map concat] in H.
  pose proof (lines_longer h) as G. pose proof (lossy_longer v) as Gv. pose proof (f_equal (@length N) H) as HL.
  rewrite line_encoded, line_displayed, !app_length in HL.
  apply app_same_length in H as [H1 H2].
  - constructor; [|exact (IH H2)]. cbn [snd]. apply lossy_same. rewrite line_encoded, line_displayed in H1.
    apply app_inv_head in H1. apply app_inv_head in H1. apply app_inv_tail in H1. exact H1.
  - rewrite line_encoded, line_displayed, !app_length. lia.
Qed.
Lemma req_display_exact q body w : req_http1_data q body = Ok w ->
  (req_display q body = w <-> Forall (fun nv => is_utf8 (snd nv)) (q_header q)).
Proof.
  intros E. split; [|intros H; exact (req_display_wire q body w H E)]. intros D. subst w.
  unfold req_http1_data, req_encode_header in E.
  assert (M : method_encode (q_method q) = Ok (method_str (q_method q)) \/ method_encode (q_method q) = Err (ESerialize "method")) by (destruct (q_method q); auto).
  assert (V : version_encode (q_version q) = Ok (version_str (q_version q)) \/ version_encode (q_version q) = Err (ESerialize "version")) by (destruct (q_version q); auto).
  destruct M as [M|M]; rewrite M in E; [|discriminate E]. destruct V as [V|V]; rewrite V in E; [|discriminate E]. cbn [bind] in E.
  injection E as E. unfold req_display in E. repeat (rewrite <- ?app_assoc in E; cbn [app] in E).
  apply app_inv_head in E. injection E as E. apply app_inv_head in E. injection E as E. apply app_inv_head in E. injection E as E.
  apply app_inv_tail in E. unfold hm_display, hm_encode in E. symmetry in E. exact (lines_same _ _ E).
Qed.
Lemma resp_display_exact p body w : 100 <= p_status p <= 999 -> resp_httpdata p body = Ok w ->
  (resp_display p body = w <-> Forall (fun nv => is_utf8 (snd nv)) (p_header p)).
Proof.
  intros R E. split; [|intros H; exact (resp_display_wire p body w R H E)]. intros D. subst w.
  unfold resp_httpdata, resp_encode_header in E.
  assert (V : version_encode (p_version p) = Ok (version_str (p_version p)) \/ version_encode (p_version p) = Err (ESerialize "version")) by (destruct (p_version p); auto).
  destruct V as [V|V]; rewrite V in E; [|discriminate E]. unfold status_encode in E. cbn [bind] in E.
  destruct (canonical_reason (p_status p)) as [s|] eqn:C; [|discriminate E]. cbn [bind] in E.
  injection E as E. unfold resp_display, status_display in E. rewrite C, status_str_dec in E by exact R. repeat (rewrite <- ?app_assoc in E; cbn [app] in E).
  apply app_inv_head in E. injection E as E. apply app_inv_head in E. injection E as E. apply app_inv_head in E. injection E as E.
  apply app_inv_tail in E. unfold hm_display, hm_encode in E. symmetry in E. exact (lines_same _ _ E).
Qed.
