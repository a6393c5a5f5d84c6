(** Exact conditions for properties that hold in part only: C16, C33, C38, C41, C61, C65, C73, C78. *)
From Coq Require Import Ascii String NArith ZArith Lia Bool List ZifyBool ZifyNat ZifyN.
From Verif Require Import Base S_Utf8 P_Base M_Std M_Helper M_Header M_Url M_Http1 S_Http1 S_Map P_Map S_Http1Api S_Reason T_Http1
  M_Hpack S_Hpack S_HpackApi T_Hpack M_Frame M_H2 S_Frame S_H2Api P_Frame P_Ctl P_Data S_H2Msg M_Build S_Build P_More.
Import ListNotations.
Local Open Scope N_scope.

(** ** C16: two names that compare equal have the same hash exactly when they are clash-free. *)
Theorem C16_equal_hash_exact : forall a b, Forall tchar a -> Forall tchar b -> name_eq a b = true ->
  (name_hash_input a = name_hash_input b <-> clash_free a b).
Proof. exact hash_exact. Qed.
Print Assumptions C16_equal_hash_exact.
Example C16_exact_nonvacuous : name_eq (str "Host") (str "hOST") = true /\ name_hash_input (str "Host") = name_hash_input (str "hOST") /\
  name_eq (str "a-b") (str "AMB") = true /\ name_hash_input (str "a-b") <> name_hash_input (str "AMB").
Proof. vm_compute. repeat split; discriminate. Qed.

(** ** C33: entry 15 is the only one that differs from RFC 7541, Appendix A. *)
Theorem C33_static_table_exact : forall t i, 1 <= i <= 61 ->
  (get_from_index t i = option_map rfc_entry (nth_error rfc_static (N.to_nat (i - 1))) <-> i <> 15).
Proof.
  intros t i I. split.
  - intros H ->. destruct (C33_static_table_refuted t) as [A B]. change (N.to_nat (15 - 1)) with 14%nat in H. rewrite A, B in H. vm_compute in H. discriminate H.
  - intros N. destruct (C33_static_table_partial t i I N) as (e & A & B). rewrite A, B. reflexivity.
Qed.
Print Assumptions C33_static_table_exact.

(** ** C38: DATA with the PADDED flag.
    encode writes no pad length, so the receiver takes the first octet of every piece for one: when it is not larger than
    the piece, the piece arrives without it; else the piece is refused and nothing after it is read. *)
Theorem C38_padded_partial : forall L t max d, 0 < max < 16777216 -> 0 < da_id d < 2147483648 ->
  defined_flags (da_flags d) -> is_padded (da_flags d) = true ->
  exists out chunks last, data_encode max d = Ok out /\ concat chunks ++ last = da_data d /\
    (Forall (fun c => hd 0 c <= blen c) (chunks ++ [last]) ->
     received L t out t (map (fun c => FData (mkData (da_id d) (tl c) (unset_end_stream (da_flags d)))) chunks ++
                         [FData (mkData (da_id d) (tl last) (da_flags d))])) /\
    (~ Forall (fun c => hd 0 c <= blen c) (chunks ++ [last]) -> forall t' fs, ~ received L t out t' fs).
Proof.
  intros L t max d M I D P. destruct (data_split max d M) as (cs & la & E & C & F & La & _); [lia|]. eexists. exists cs, la.
  assert (F' : Forall (fun c => blen c < 16777216) cs) by (eapply Forall_impl; [|exact F]; intros c Hc; cbn beta in Hc; lia).
  split; [exact E|]. split; [exact C|]. split.
  - intros G. apply padded_received; try assumption. lia.
  - intros G t' fs R. apply G. exact (padded_some L t (da_flags d) (da_id d) la cs t' fs I D P F' ltac:(lia) R).
Qed.
Print Assumptions C38_padded_partial.
(** So data that is not empty arrives complete exactly when the flag is not set. *)
Theorem C38_exact : forall L t max d, 0 < max < 16777216 -> 0 < da_id d < 2147483648 ->
  defined_flags (da_flags d) -> da_data d <> [] ->
  ((exists out t' fs, data_encode max d = Ok out /\ received L t out t' (map FData fs) /\ concat (map da_data fs) = da_data d)
   <-> is_padded (da_flags d) = false).
Proof.
  intros L t max d M I D NE. split.
  - intros (out & t' & fs & E & R & C). destruct (is_padded (da_flags d)) eqn:P; [exfalso|reflexivity].
    destruct (data_split max d M) as (cs & la & E' & C' & F & La & NL); [lia|]. rewrite E in E'. injection E' as ->.
    assert (F' : Forall (fun c => blen c < 16777216) cs) by (eapply Forall_impl; [|exact F]; intros c Hc; cbn beta in Hc; lia).
    pose proof (padded_some L t (da_flags d) (da_id d) la cs t' _ I D P F' ltac:(lia) R) as G.
    pose proof (padded_received L t (da_flags d) (da_id d) la cs I D P F' ltac:(lia) G) as R'.
    destruct (received_fun _ _ _ _ _ R _ _ R') as [_ Q]. apply (f_equal (fun l => concat (map data_of l))) in Q.
    rewrite map_map in Q. change (map (fun x => data_of (FData x)) fs) with (map da_data fs) in Q. rewrite C, map_app, map_map in Q.
    cbn [data_of da_data map] in Q. change [tl la] with (map (@tl N) [la]) in Q. rewrite <- map_app in Q.
    assert (X : Forall (fun c => c <> []) (cs ++ [la])).
    { apply Forall_app. split; [|constructor; [exact (NL NE)|constructor]]. eapply Forall_impl; [|exact F]. intros c Hc K. subst c. cbn beta in Hc. change (blen []) with 0 in Hc. lia. }
    pose proof (padded_lost cs la X) as Y. assert (Z : blen (da_data d) + N.of_nat (length (cs ++ [la])) = blen (concat (cs ++ [la]))) by (rewrite Q; exact Y). clear Y. rename Z into Y. rewrite concat_app in Y. cbn [concat] in Y. rewrite app_nil_r, C' in Y. rewrite app_length in Y. cbn [length] in Y. lia.
  - intros P. destruct (data_received L t max d M I D P) as (out & cs & la & E & R & C).
    exists out, t, (map (fun c => mkData (da_id d) c (unset_end_stream (da_flags d))) cs ++ [mkData (da_id d) la (da_flags d)]).
    split; [exact E|]. rewrite map_app, map_map. split; [exact R|]. rewrite map_app, map_map. cbn [map da_data]. rewrite map_id, concat_app. cbn [concat]. rewrite app_nil_r. exact C.
Qed.
Print Assumptions C38_exact.
Example C38_exact_nonvacuous : exists out, data_encode 4 (mkData 3 [2; 7; 7; 7; 9; 1] 8) = Ok out /\
  recv hi_new 100 (firstn 13 out) = (hi_new, Ok (FData (mkData 3 [7; 7; 7] 8), [])) /\
  recv hi_new 100 (skipn 13 out) = (hi_new, Err (EHttp2 (TooMuchPadding 9))).
Proof. eexists. split; [vm_compute; reflexivity|]. split; vm_compute; reflexivity. Qed.

(** ** C41: a received DATA frame with PADDED.
    RFC 9113 6.1: the payload is a pad length, the data and that many octets of padding; a pad length that reaches the
    length of the payload is an error. *)
Inductive padded_means : bytes -> option bytes -> Prop :=
| pm_ok data padding : padded_means ([blen padding] ++ data ++ padding) (Some data)
| pm_error p l : blen (p :: l) <= p -> padded_means (p :: l) None.
(** The code agrees exactly when the pad length is 0 or larger than the payload. *)
Theorem C41_exact : forall t L f id p l rest what, blen (p :: l) < 16777216 -> 0 < id < 2147483648 -> defined_flags f -> is_padded f = true ->
  padded_means (p :: l) what ->
  (match what with
   | Some data => recv t L (frame_octets 0 f id (p :: l) ++ rest) = (t, Ok (FData (mkData id data f), rest))
   | None => exists e, recv t L (frame_octets 0 f id (p :: l) ++ rest) = (t, Err e)
   end <-> p = 0 \/ blen (p :: l) < p).
Proof.
  intros t L f id p l rest what B I D P W. rewrite blen_cons in *. rewrite recv_padded_data by (assumption || lia).
  inversion W as [data padding E1 E2|q k K E1 E2]; subst.
  - rewrite !blen_app. replace (blen data + blen padding + 1 <? blen padding) with false by lia. split.
    + intros H. apply (f_equal snd) in H. cbn [snd] in H. injection H as H. left. rewrite <- (app_nil_r data) in H at 2. apply app_inv_head in H. subst padding. reflexivity.
    + intros [H|H]; [|lia]. destruct padding as [|x y]; [|rewrite blen_cons in H; lia]. rewrite app_nil_r. reflexivity.
  - rewrite blen_cons in K. split.
    + intros (e & H). apply (f_equal snd) in H. cbn [snd] in H. destruct (N.ltb_spec (blen l + 1) p) as [G|G]; [right; lia|discriminate H].
    + intros [->|H]; [lia|]. replace (blen l + 1 <? p) with true by lia. eexists. reflexivity.
Qed.
Print Assumptions C41_exact.
(** Every payload that is not empty means something. *)
Example C41_exact_nonvacuous : padded_means [2; 104; 105; 0; 0] (Some [104; 105]) /\ padded_means [3; 104; 105] None /\ padded_means [0; 104] (Some [104]) /\ padded_means [2; 1] None.
Proof.
  split; [exact (pm_ok [104; 105] [0; 0])|]. split; [apply pm_error; vm_compute; discriminate|]. split; [exact (pm_ok [104] [])|].
  apply pm_error; vm_compute; discriminate.
Qed.
Theorem C41_means : forall p l, exists what, padded_means (p :: l) what.
Proof.
  intros p l. destruct (N.ltb_spec p (blen (p :: l))) as [H|H]; [|exists None; apply pm_error, H]. rewrite blen_cons in H.
  exists (Some (firstn (N.to_nat (blen l - p)) l)).
  assert (E : p :: l = [blen (skipn (N.to_nat (blen l - p)) l)] ++ firstn (N.to_nat (blen l - p)) l ++ skipn (N.to_nat (blen l - p)) l).
  { rewrite firstn_skipn. cbn [app]. f_equal. unfold blen in *. rewrite skipn_length. lia. }
  rewrite E. apply pm_ok.
Qed.
Print Assumptions C41_means.

(** ** C61: three codes only have another phrase than the registered one. *)
Theorem C61_reason_phrases_exact : forall c, 100 <= c <= 999 ->
  ((forall t, canonical_reason c = Some t <-> registered c t) <-> ~ In c [103; 203; 425]).
Proof.
  intros c R. split.
  - intros H K. destruct C61_reason_phrases_refuted as (A & B & C & D). destruct K as [<-|[<-|[<-|[]]]].
    + assert (X : registered 103 (str "Early Hints")) by (eexists; split; [|reflexivity]; vm_compute; tauto). apply H in X. rewrite A in X. discriminate X.
    + apply H in D. rewrite C in D. vm_compute in D. discriminate D.
    + assert (X : registered 425 (str "Too Early")) by (eexists; split; [|reflexivity]; vm_compute; tauto). apply H in X. rewrite B in X. discriminate X.
  - intros N t. exact (C61_reason_phrases_partial c t R N).
Qed.
Print Assumptions C61_reason_phrases_exact.

(** ** C65: what Frame::stream_id and Frame::flags report for each kind of frame. *)
Theorem C65_reports_partial : forall t h l L t' f, frame_parse t h l L = (t', Ok f) ->
  frame_stream_id f = match fh_kind h with KPriority | KGoAway => 0 | _ => fh_id h end /\
  frame_flags f = match fh_kind h with
                  | KData | KHeaders | KPushPromise => fh_flag h
                  | KSettings => N.land (fh_flag h) 1
                  | _ => 0
                  end.
Proof. exact parse_reports. Qed.
Print Assumptions C65_reports_partial.
Example C65_reports_nonvacuous : exists t' f, frame_parse hi_new (mkFH 0 KSettings 5 0) [] 4096 = (t', Ok f) /\ frame_flags f = 1.
Proof. eexists. eexists. split; [vm_compute; reflexivity|reflexivity]. Qed.

(** ** C73: the two storages read a text as the same usize, or both refuse it, exactly when it is not empty and no numeral
    after a plus sign. *)
Theorem C73_usize_exact : forall v, (forall n, value_usize_stand v = Ok n <-> value_usize v = Ok n) <->
  v <> [] /\ ~ exists w n, v = 43 :: w /\ decimal w n /\ n < 2 ^ 64.
Proof. exact usize_storage. Qed.
Print Assumptions C73_usize_exact.

(** ** C78: the text displayed for a message that can be written is what is written exactly when all values are UTF-8. *)
Theorem C78_exact : 
  (forall q body w, req_http1_data q body = Ok w -> (req_display q body = w <-> Forall (fun nv => is_utf8 (snd nv)) (q_header q))) /\
  (forall p body w, 100 <= p_status p <= 999 -> resp_httpdata p body = Ok w ->
     (resp_display p body = w <-> Forall (fun nv => is_utf8 (snd nv)) (p_header p))).
Proof. split; [exact req_display_exact|exact resp_display_exact]. Qed.
Print Assumptions C78_exact.
Example C78_exact_nonvacuous : exists w, req_http1_data (mkReq MGet V11 url_new [(str "a", [240; 144; 128])] false) [] = Ok w /\
  blen (req_display (mkReq MGet V11 url_new [(str "a", [240; 144; 128])] false) []) = blen w.
Proof. eexists. split; [vm_compute; reflexivity|]. vm_compute. reflexivity. Qed.
