(** C111: WebSocket connections as RFC 6455 has them, compared with what is received. *)
From Coq Require Import Ascii String NArith ZArith Lia Bool List.
From Verif Require Import Base S_Utf8 P_Base M_Ws S_Ws S_WsApi P_Ws S_WsTalk S_Rfc6455 P_Rfc6455.
Import ListNotations.
Local Open Scope N_scope.

(** Whatever a client or a server says as the RFC has it is received, whatever follows. *)
Theorem C111_received : forall client fs ms rest, rfc_said client fs ms ->
  ws_receive (length fs) [] (wframes_octets fs ++ rest) = Ok (ms, [], rest).
Proof. intros client fs ms rest (R & _ & _ & T & _). apply said_received; assumption. Qed.
Print Assumptions C111_received.
(** What is received without an error and without a rest are frames of the RFC that carry these messages. *)
Theorem C111_accepted : forall k l ms r, bytes_ok l -> (ws_receive k [] l = Ok (ms, [], r) <->
  exists fs, length fs = k /\ l = wframes_octets fs ++ r /\ frames_range fs /\ rfc_talk None fs ms).
Proof. exact accepted_iff. Qed.
Print Assumptions C111_accepted.
(** And that is what a client, or a server, may say exactly if all frames are masked, or none; all lengths are below
    2^63; all codes are such as may be sent; and no data follows a close. *)
Theorem C111_strict : forall client fs ms r, frames_range fs -> rfc_talk None fs ms ->
  ((exists fs' ms', length fs' = length fs /\ wframes_octets fs ++ r = wframes_octets fs' ++ r /\ rfc_said client fs' ms') <->
   masks_ok client fs /\ lengths_ok fs /\ Forall code_ok ms /\ close_last ms).
Proof. exact said_iff. Qed.
Print Assumptions C111_strict.
(** What is written for messages within the limits are frames of the RFC that carry them, with the keys that are given. *)
Theorem C111_sent : forall ms keys, Forall api_message ms -> length keys = length ms ->
  exists fs, Forall2 (fun mk f => write_to (message_df (fst mk)) (snd mk) = Ok (wframe_octets f)) (combine ms keys) fs /\ map wf_key fs = keys /\
    rfc_talk None fs (map owned_of_message ms).
Proof. exact sent_all. Qed.
Print Assumptions C111_sent.
(** Each of the four conditions is needed: received are a frame without a key and one with a key, a close with the code 999 or 1005,
    and data after a close. *)
Theorem C111_strict_refuted :
  ws_receive 2 [] [129; 1; 97; 129; 129; 0; 0; 0; 0; 97] = Ok ([OwText (str "a"); OwText (str "a")], [], []) /\
  (forall client, ~ masks_ok client [mkWF true 1 None (str "a"); mkWF true 1 (Some (0, 0, 0, 0)) (str "a")]) /\
  ws_receive 1 [] [136; 2; 3; 231] = Ok ([OwClose (Some {| cd_code := 999; cd_reason := [] |})], [], []) /\
  ~ code_ok (OwClose (Some {| cd_code := 999; cd_reason := [] |})) /\
  ws_receive 1 [] [136; 2; 3; 237] = Ok ([OwClose (Some {| cd_code := 1005; cd_reason := [] |})], [], []) /\
  ~ code_ok (OwClose (Some {| cd_code := 1005; cd_reason := [] |})) /\
  ws_receive 2 [] [136; 0; 130; 1; 7] = Ok ([OwClose None; OwBinary [7]], [], []) /\ ~ close_last [OwClose None; OwBinary [7]].
Proof.
  repeat match goal with |- _ /\ _ => split end; try (vm_compute; reflexivity).
  - intros [|] H; inversion H as [|? ? H1 H2]; subst; cbn in H1; [congruence|]. inversion H2 as [|? ? H3 _]; subst. discriminate H3.
  - intros H. destruct (H _ eq_refl) as [K _]. cbn in K. lia.
  - intros H. destruct (H _ eq_refl) as [_ K]. apply K. cbn. auto.
  - intros H. discriminate (H [] None [OwBinary [7]] (OwBinary [7]) eq_refl (or_introl eq_refl)).
Qed.
Print Assumptions C111_strict_refuted.
(** A length with the highest bit set is received, with as many octets behind it. *)
Theorem C111_length_refuted : forall data rest, 2 ^ 63 <= blen data < 2 ^ 64 ->
  ws_receive 1 [] (wframe_octets (mkWF true 2 None data) ++ rest) = Ok ([OwBinary data], [], rest) /\ ~ lengths_ok [mkWF true 2 None data].
Proof.
  intros data rest L. split.
  - pose proof (said_received [mkWF true 2 None data] [OwBinary data] rest) as H. unfold wframes_octets in H. cbn [map concat length] in H. rewrite app_nil_r in H.
    apply H; [constructor; [split; [exact I|cbn; lia]|constructor]|]. apply rt_whole; [auto|constructor|constructor].
  - intros H. inversion H as [|? ? K _]; subst. cbn [wf_data] in K. lia.
Qed.
Print Assumptions C111_length_refuted.

Definition c111_frames : list wframe :=
  [mkWF false 1 (Some (1, 2, 3, 4)) (str "he"); mkWF true 9 (Some (0, 0, 0, 9)) (str "p"); mkWF true 0 (Some (5, 6, 7, 8)) (str "llo");
   mkWF true 8 (Some (9, 9, 9, 9)) [3; 232]].
Example C111_nonvacuous :
  rfc_said true c111_frames [OwPing (str "p"); OwText (str "hello"); OwClose (Some {| cd_code := 1000; cd_reason := [] |})] /\
  ws_receive 4 [] (wframes_octets c111_frames) = Ok ([OwPing (str "p"); OwText (str "hello"); OwClose (Some {| cd_code := 1000; cd_reason := [] |})], [], []).
Proof.
  split; [|vm_compute; reflexivity]. unfold rfc_said, c111_frames. repeat match goal with |- _ /\ _ => split end.
  - repeat (apply Forall_cons; [split; [cbn; lia|reflexivity]|]). apply Forall_nil.
  - repeat (apply Forall_cons; [cbn; discriminate|]). apply Forall_nil.
  - repeat (apply Forall_cons; [reflexivity|]). apply Forall_nil.
  - apply rt_first; [auto|]. apply rt_control; [auto|cbv; discriminate|constructor|]. apply rt_last; [constructor; apply utf8_valid_iff; reflexivity|].
    apply rt_control; [auto|cbv; discriminate| |constructor]. apply (me_because 3 232 []). apply utf8_valid_iff. reflexivity.
  - apply Forall_cons; [intros c E; discriminate E|]. apply Forall_cons; [intros c E; discriminate E|]. apply Forall_cons; [|apply Forall_nil].
    intros c [= <-]. cbn. split; [lia|intuition discriminate].
  - intros [|x1 [|x2 [|x3 [|x4 a]]]] c b x E I; cbn in E; try discriminate E. injection E as _ _ _ <-. destruct I.
Qed.
