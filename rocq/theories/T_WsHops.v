(** C131: WebSocket connections through any number of intermediaries. *)
From Coq Require Import Ascii String NArith ZArith Lia Bool List ZifyBool ZifyNat ZifyN.
From Verif Require Import Base P_Base S_Utf8 M_Ws S_Ws S_WsApi P_Ws S_WsTalk S_Rfc6455 P_Rfc6455 S_RfcTalk P_RfcTalk S_RfcCarry P_RfcCarry S_WsHops P_WsHops.
Import ListNotations.
Local Open Scope N_scope.

(** Whatever row of intermediaries there is, each sending on messages or single frames, with keys or without: no one of them fails,
    and the last receiver takes the messages that the first one takes, and no others. *)
Theorem C131_messages : forall hs l ms, bytes_ok l -> tells l ms -> Forall (fun m => blen (owned_data m) < 2 ^ 64) ms -> Forall hop_keys hs ->
  exists b, sent_over hs l b /\ (forall b', sent_over hs l b' -> b' = b) /\ bytes_ok b /\ forall ms', tells b ms' <-> ms' = ms.
Proof. exact relayed. Qed.
Print Assumptions C131_messages.
(** What a client, or a server, may say is behind them what a client, or a server, may say: it depends on the keys of the last one only. *)
Theorem C131_said : forall client role hs h l ms, bytes_ok l -> may_say client l ms -> Forall (fun m => blen (owned_data m) < 2 ^ 63) ms -> Forall hop_keys (hs ++ [h]) ->
  (forall i, own_keys role [snd h i]) -> exists b, sent_over (hs ++ [h]) l b /\ (forall b', sent_over (hs ++ [h]) l b' -> b' = b) /\ may_say role b ms.
Proof.
  intros client role hs h l ms B (fs & E & FR & _ & _ & TK & CO & CL) F K O.
  assert (T : tells l ms) by (exists (length fs); pose proof (said_received fs ms [] FR TK) as R; rewrite app_nil_r in R; rewrite E; exact R).
  assert (F64 : Forall (fun m => blen (owned_data m) < 2 ^ 64) ms) by (eapply Forall_impl; [|exact F]; cbn; intros; lia).
  destruct (relayed _ l ms B T F64 K) as (b & S & U & _). exists b. split; [exact S|]. split; [exact U|]. exact (relayed_said hs h l ms role B T F K O CO CL b S).
Qed.
Print Assumptions C131_said.
(** If all send on single frames, the last receiver takes the same frames, also such as make no messages and such with reserved bits. *)
Theorem C131_frames : forall hs l ds, bytes_ok l -> frames_told l ds -> Forall (fun h => fst h = ByFrames) hs ->
  exists b, sent_over hs l b /\ (forall b', sent_over hs l b' -> b' = b) /\ forall ds', frames_told b ds' <-> ds' = ds.
Proof. exact relayed_frames. Qed.
Print Assumptions C131_frames.

(** The frames do not pass an intermediary that sends on messages: two fragments become one frame. *)
Theorem C131_fragments_refuted : exists l ds h b ds', bytes_ok l /\ frames_told l ds /\ hop_keys h /\ sent_on h l b /\ frames_told b ds' /\ length ds = 2%nat /\ length ds' = 1%nat.
Proof.
  exists [1; 1; 97; 128; 1; 98], [plain_frame false OText [97]; plain_frame true Continuation [98]], (ByMessages, fun _ => None), [129; 2; 97; 98], [plain_frame true OText [97; 98]].
  split; [repeat apply Forall_cons; try constructor; unfold byte_ok; lia|]. split; [exists 2%nat; vm_compute; reflexivity|]. split; [intros i; exact I|].
  split; [|split; [exists 1%nat; vm_compute; reflexivity|split; reflexivity]].
  exists [OwText [97; 98]]. split; [exists 2%nat; vm_compute; reflexivity|]. exists [[129; 2; 97; 98]]. split; [|reflexivity]. cbn [length seq map combine keys_for snd fst]. constructor; [vm_compute; reflexivity|constructor].
Qed.
Print Assumptions C131_fragments_refuted.
(** Frames that make no messages, such as one with a reserved bit, pass no intermediary that sends on messages. *)
Theorem C131_reserved_refuted : exists l ds h, bytes_ok l /\ frames_told l ds /\ hop_keys (ByFrames, h) /\ (exists b, sent_on (ByFrames, h) l b) /\ forall b, ~ sent_on (ByMessages, h) l b.
Proof.
  exists [193; 1; 97], [{| d_fin := true; d_rsv := (true, false, false); d_op := OText; d_data := [97] |}], (fun _ => None).
  assert (B : bytes_ok [193; 1; 97]) by (repeat apply Forall_cons; try constructor; unfold byte_ok; lia).
  assert (T : frames_told [193; 1; 97] [{| d_fin := true; d_rsv := (true, false, false); d_op := OText; d_data := [97] |}]) by (exists 1%nat; vm_compute; reflexivity).
  split; [exact B|]. split; [exact T|]. split; [intros i; exact I|]. split.
  - destruct (C131_frames [(ByFrames, fun _ => None)] _ _ B T) as (b & S & _); [repeat constructor|]. inversion S as [|? ? ? m ? A Z]; subst. exists m. exact A.
  - intros b (ms & [k R] & _). destruct k as [|k]; [discriminate R|]. vm_compute in R. discriminate R.
Qed.
Print Assumptions C131_reserved_refuted.

(** Non-vacuity: a masked text in two fragments around a ping, and a close, over four intermediaries of both kinds, with and without keys. *)
Definition hop_octets : bytes := [1; 129; 1; 2; 3; 4; 96; 137; 129; 1; 2; 3; 4; 6; 128; 129; 1; 2; 3; 4; 99; 136; 130; 1; 2; 3; 4; 2; 234].
Definition hop_row : list ws_hop := [(ByFrames, fun _ => None); (ByMessages, fun i => Some (N.of_nat i mod 256, 7, 8, 9)); (ByFrames, fun _ => Some (1, 1, 1, 1)); (ByMessages, fun _ => None)].
Definition hop_messages : list owned := [OwPing [7]; OwText [97; 98]; OwClose (Some {| cd_code := 1000; cd_reason := [] |})].
Example C131_met : exists b, sent_over hop_row hop_octets b /\ bytes_ok b /\ tells hop_octets hop_messages /\ tells b hop_messages.
Proof.
  assert (T : tells hop_octets hop_messages) by (exists 4%nat; vm_compute; reflexivity).
  destruct (C131_messages hop_row hop_octets hop_messages) as (b & S & _ & B & D).
  - repeat apply Forall_cons; try constructor; unfold byte_ok; lia.
  - exact T.
  - repeat apply Forall_cons; try constructor; vm_compute; reflexivity.
  - repeat apply Forall_cons; [..|constructor]; intros i; cbn [snd key_ok]; try exact Logic.I; repeat split; try lia; try (apply N.mod_lt; lia).
  - exists b. split; [exact S|]. split; [exact B|]. split; [exact T|]. apply D. reflexivity.
Qed.
