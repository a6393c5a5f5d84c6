(** C125: what is received on one WebSocket connection and sent on over another one. *)
From Coq Require Import Ascii String NArith ZArith Lia Bool List ZifyBool ZifyNat ZifyN.
From Verif Require Import Base P_Base S_Utf8 P_Huffman P_WriteAll S_WriteAll M_Ws S_Ws S_WsApi P_Ws S_WsTalk P_WsTalk S_Rfc6455 P_Rfc6455 S_RfcTalk P_RfcTalk S_RfcCarry P_RfcCarry.
Import ListNotations.
Local Open Scope N_scope.

(** Messages: whatever is received, writing the messages does not fail, and what is written tells these messages and no others,
    in the role of a client or of a server, exactly if the keys are those of the role, no message has 2^63 octets or more,
    all codes are such as may be sent, and no data follows a close. *)
Theorem C125_messages : forall k l ms r role keys, bytes_ok l -> ws_receive k [] l = Ok (ms, [], r) -> length keys = length ms -> Forall key_ok keys ->
  Forall (fun m => blen (owned_data m) < 2 ^ 64) ms ->
  exists b, messages_written ms keys b /\
    forall ms', may_say role b ms' <-> ms' = ms /\ own_keys role keys /\ Forall (fun m => blen (owned_data m) < 2 ^ 63) ms /\ Forall code_ok ms /\ close_last ms.
Proof. exact carried_on. Qed.
Print Assumptions C125_messages.
(** So what a client, or a server, may say, received as messages and written with the keys of the other role, or of the same one, is
    told again, if no message has 2^63 octets or more. *)
Theorem C125_said : forall client fs ms rest role keys, rfc_said client fs ms -> Forall (fun f => bytes_ok (wf_data f)) fs -> length keys = length ms -> Forall key_ok keys ->
  own_keys role keys -> Forall (fun m => blen (owned_data m) < 2 ^ 63) ms ->
  exists b, ws_receive (length fs) [] (wframes_octets fs ++ rest) = Ok (ms, [], rest) /\ messages_written ms keys b /\ may_say role b ms.
Proof.
  intros client fs ms rest role keys (FR & _ & _ & T & CO & CL) B E K OK L.
  assert (C : Forall carried ms) by (apply (talk_carried None fs ms T B I)).
  assert (L64 : Forall (fun m => blen (owned_data m) < 2 ^ 64) ms) by (eapply Forall_impl; [|exact L]; cbn; intros; lia).
  destruct (owned_write_all ms keys C L64) as [b W]. exists b. split; [apply said_received; assumption|]. split; [exact W|].
  apply (owned_say role (combine ms keys) b ms).
  - rewrite combine_fst by exact E. eapply Forall_impl; [|exact C]. intros m M. apply M.
  - apply Forall_forall. intros [m key] H. cbn [fst snd]. rewrite Forall_forall in L64, K. split; [apply L64; eapply in_combine_l, H|apply K; eapply in_combine_r, H].
  - exact W.
  - rewrite combine_fst, combine_snd by exact E. auto.
Qed.
Print Assumptions C125_said.
(** Frames: whatever is read, writing the frames does not fail, and what is written tells messages, in the role of a client or of a
    server, exactly if the keys are those of the role and what was read told them, the masks apart. *)
Theorem C125_frames : forall k l ds r role keys, bytes_ok l -> read_frames k l = Ok (ds, r) -> length keys = k -> Forall key_ok keys ->
  exists b, frames_written_on ds keys b /\
    forall ms, may_say role b ms <-> own_keys role keys /\
      exists fs, l = wframes_octets fs ++ r /\ length fs = k /\ frames_range fs /\ lengths_ok fs /\ rfc_talk None fs ms /\ Forall code_ok ms /\ close_last ms.
Proof. exact frames_on. Qed.
Print Assumptions C125_frames.
(** So frame by frame, all that a client, or a server, may say is told again, without a condition on the lengths. *)
Theorem C125_frames_said : forall client fs ms rest role keys, rfc_said client fs ms -> bytes_ok (wframes_octets fs ++ rest) -> length keys = length fs -> Forall key_ok keys ->
  own_keys role keys ->
  exists ds b, read_frames (length fs) (wframes_octets fs ++ rest) = Ok (ds, rest) /\ frames_written_on ds keys b /\ may_say role b ms.
Proof.
  intros client fs ms rest role keys (FR & _ & LO & T & CO & CL) B E K OK. pose proof (shows_frames _ _ (rfc_shown _ _ _ T FR) rest) as R.
  destruct (frames_on _ _ _ _ role keys B R E K) as (b & W & S). exists (map shown fs), b. split; [exact R|]. split; [exact W|]. apply S. split; [exact OK|]. exists fs. auto 10.
Qed.
Print Assumptions C125_frames_said.

(** Received and written again, but by no client or server to be sent: a close with a code such as 999, 1005 or 5000, and data after a close. *)
Theorem C125_code_refuted : forall role c key, c < 1000 \/ 4999 < c < 65536 \/ c = 1004 \/ c = 1005 \/ c = 1006 \/ c = 1015 -> key_ok key ->
  let m := OwClose (Some {| cd_code := c; cd_reason := [] |}) in
  ws_receive 1 [] [136; 2; c / 256; c mod 256] = Ok ([m], [], []) /\
  exists b, messages_written [m] [key] b /\ forall ms, ~ may_say role b ms.
Proof.
  intros role c key C K m. assert (B : bytes_ok [136; 2; c / 256; c mod 256]) by (repeat apply Forall_cons; try constructor; unfold byte_ok; lia).
  assert (R : ws_receive 1 [] [136; 2; c / 256; c mod 256] = Ok ([m], [], [])).
  { apply (accepted_iff 1 _ _ _ B). exists [mkWF true 8 None [c / 256; c mod 256]]. split; [reflexivity|]. split; [reflexivity|]. split.
    - constructor; [split; [exact I|reflexivity]|constructor].
    - apply rt_control; [auto|vm_compute; discriminate| |constructor]. unfold m. replace c with (c / 256 * 256 + c mod 256) at 3 by lia. constructor. apply utf8_valid_iff. reflexivity. }
  split; [exact R|]. destruct (carried_on 1 _ _ _ role [key] B R) as (b & W & S); [reflexivity|constructor; [exact K|constructor]|constructor; [reflexivity|constructor]|].
  exists b. split; [exact W|]. intros ms H. apply S in H as (_ & _ & _ & CO & _). destruct (Forall_inv CO _ eq_refl) as [X NI]. cbn [cd_code In] in X, NI.
  destruct C as [C|[C|[->|[->|[->| ->]]]]]; try lia; apply NI; auto 6.
Qed.
Print Assumptions C125_code_refuted.
Theorem C125_close_refuted : forall role p k1 k2, bytes_ok p -> blen p <= 125 -> key_ok k1 -> key_ok k2 ->
  ws_receive 2 [] ([136; 0; 130; blen p] ++ p) = Ok ([OwClose None; OwBinary p], [], []) /\
  exists b, messages_written [OwClose None; OwBinary p] [k1; k2] b /\ forall ms, ~ may_say role b ms.
Proof.
  intros role p k1 k2 BP L K1 K2. assert (B : bytes_ok ([136; 0; 130; blen p] ++ p)) by (apply bytes_ok_app; split; [repeat apply Forall_cons; try constructor; unfold byte_ok; lia|exact BP]).
  assert (R : ws_receive 2 [] ([136; 0; 130; blen p] ++ p) = Ok ([OwClose None; OwBinary p], [], [])).
  { apply (accepted_iff 2 _ _ _ B). exists [mkWF true 8 None []; mkWF true 2 None p]. split; [reflexivity|]. split.
    - unfold wframes_octets. cbn [map concat]. rewrite !app_nil_r. unfold wframe_octets, spec_frame, spec_header, spec_len7, spec_ext. cbn [wf_fin wf_op wf_key wf_data]. replace (blen p <? 126) with true by lia. reflexivity.
    - split; [repeat apply Forall_cons; try constructor; try exact I; cbn [wf_data]; try reflexivity; lia|].
      apply rt_control; [auto|vm_compute; discriminate|constructor|]. apply rt_whole; [auto|constructor|constructor]. }
  split; [exact R|]. destruct (carried_on 2 _ _ _ role [k1; k2] B R) as (b & W & S); [reflexivity|repeat apply Forall_cons; auto|repeat apply Forall_cons; try constructor; cbn [owned_data]; lia|].
  exists b. split; [exact W|]. intros ms H. apply S in H as (_ & _ & _ & _ & CL). discriminate (CL [] None [OwBinary p] (OwBinary p) eq_refl (or_introl eq_refl)).
Qed.
Print Assumptions C125_close_refuted.
(** Two fragments that a client, or a server, may send, whose joined length is 2^63 or more: received and written as one message, they are no longer such. *)
Theorem C125_joined_refuted : forall (client : bool) k1 k2 p1 p2 role key, bytes_ok p1 -> bytes_ok p2 -> key_ok k1 -> key_ok k2 -> key_ok key ->
  own_keys client [k1; k2] -> blen p1 < 2 ^ 63 -> blen p2 < 2 ^ 63 -> 2 ^ 63 <= blen p1 + blen p2 ->
  let fs := [mkWF false 2 k1 p1; mkWF true 0 k2 p2] in
  rfc_said client fs [OwBinary (p1 ++ p2)] /\ ws_receive 2 [] (wframes_octets fs) = Ok ([OwBinary (p1 ++ p2)], [], []) /\
  exists b, messages_written [OwBinary (p1 ++ p2)] [key] b /\ forall ms, ~ may_say role b ms.
Proof.
  intros client k1 k2 p1 p2 role key B1 B2 K1 K2 K OK L1 L2 L fs.
  assert (T : rfc_talk None fs [OwBinary (p1 ++ p2)]) by (apply rt_first; [auto|]; apply rt_last; [constructor|constructor]).
  assert (FR : frames_range fs) by (repeat apply Forall_cons; try constructor; try assumption; cbn [wf_data]; lia).
  assert (LJ : blen (p1 ++ p2) = blen p1 + blen p2) by (unfold blen; rewrite app_length; lia).
  split; [|split].
  - split; [exact FR|]. split; [|split; [repeat apply Forall_cons; try constructor; assumption|split; [exact T|split; [constructor; [intros c E; discriminate E|constructor]|]]]].
    + unfold own_keys in OK. apply Forall_cons_iff in OK as [O1 OK]. repeat apply Forall_cons; [exact O1|exact (Forall_inv OK)|constructor].
    + intros [|x a] c b y E; [discriminate E|]. injection E as _ E. destruct a; discriminate E.
  - pose proof (said_received fs _ [] FR T) as R. rewrite app_nil_r in R. exact R.
  - assert (C : carried (OwBinary (p1 ++ p2))) by (split; [exact I|intros E; discriminate E]).
    destruct (owned_write_all [OwBinary (p1 ++ p2)] [key]) as [b W]; [constructor; [exact C|constructor]|constructor; [cbn [owned_data]; lia|constructor]|].
    exists b. split; [exact W|]. intros ms H. apply (owned_say role [(OwBinary (p1 ++ p2), key)] b ms) in H; [|constructor; [exact I|constructor]| |exact W].
    + destruct H as (_ & _ & X & _). apply Forall_inv in X. cbn [owned_data fst] in X. lia.
    + constructor; [|constructor]. cbn [fst snd owned_data]. split; [lia|exact K].
Qed.
Print Assumptions C125_joined_refuted.

(** A server that sends on what a client said in three frames: a text in two fragments with a ping between them. *)
Definition carry_frames : list wframe :=
  [mkWF false 1 (Some (1, 2, 3, 4)) (str "he"); mkWF true 9 (Some (5, 6, 7, 8)) [1]; mkWF true 0 (Some (9, 9, 9, 9)) (str "y"); mkWF true 8 (Some (1, 1, 1, 1)) [3; 232]].
Definition carry_messages : list owned := [OwPing [1]; OwText (str "hey"); OwClose (Some {| cd_code := 1000; cd_reason := [] |})].
Lemma carry_said : rfc_said true carry_frames carry_messages.
Proof.
  split; [repeat apply Forall_cons; try constructor; vm_compute; repeat split; reflexivity|]. split; [repeat apply Forall_cons; try discriminate; constructor|].
  split; [repeat apply Forall_cons; try constructor; vm_compute; reflexivity|]. split.
  - apply rt_first; [auto|]. apply rt_control; [auto|vm_compute; discriminate|constructor|]. apply rt_last; [constructor; apply utf8_valid_iff; reflexivity|].
    apply rt_control; [auto|vm_compute; discriminate|apply (me_because 3 232); apply utf8_valid_iff; reflexivity|constructor].
  - split.
    + repeat apply Forall_cons; try (intros c E; discriminate E); [|constructor]. intros c [= <-]. cbn. split; [lia|]. intuition discriminate.
    + intros [|x1 [|x2 [|x3 a]]] c b0 x E IN; cbn in E; try discriminate E; [injection E as _ _ _ <-; destruct IN|]. injection E as _ _ _ E. destruct a; discriminate E.
Qed.
Example C125_said_met : exists b, messages_written carry_messages [None; None; None] b /\ may_say false b carry_messages /\ b = [137; 1; 1; 129; 3; 104; 101; 121; 136; 2; 3; 232].
Proof.
  destruct (C125_said true carry_frames carry_messages [] false [None; None; None] carry_said) as (b & _ & W & S).
  - repeat apply Forall_cons; try constructor; cbn [wf_data]; unfold str, byte_ok; cbn; try lia; repeat apply Forall_cons; try constructor.
  - reflexivity.
  - repeat constructor.
  - repeat constructor.
  - repeat apply Forall_cons; try constructor; vm_compute; reflexivity.
  - exists b. split; [exact W|]. split; [exact S|]. destruct W as (bs & F & ->). unfold carry_messages in F. cbn [combine map fst snd] in F.
    inversion F as [|? x1 ? ? F1 F']; subst. inversion F' as [|? x2 ? ? F2 F'']; subst. inversion F'' as [|? x3 ? ? F3 F3']; subst. inversion F3'; subst.
    vm_compute in F1, F2, F3. injection F1 as <-. injection F2 as <-. injection F3 as <-. reflexivity.
Qed.
Example C125_frames_met : exists ds b, read_frames 4 (wframes_octets carry_frames) = Ok (ds, []) /\ frames_written_on ds [None; None; None; None] b /\ may_say false b carry_messages.
Proof.
  pose proof (C125_frames_said true carry_frames carry_messages [] false [None; None; None; None] carry_said) as H. rewrite app_nil_r in H. apply H.
  - repeat apply Forall_cons; try constructor.
  - reflexivity.
  - repeat constructor.
  - repeat constructor.
Qed.
