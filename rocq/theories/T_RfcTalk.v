(** C119: what one side of a WebSocket connection writes, compared with RFC 6455. *)
From Coq Require Import Ascii String NArith ZArith Lia Bool List ZifyBool ZifyNat ZifyN.
From Verif Require Import Base P_Base S_Utf8 M_Ws S_Ws S_WsApi P_Ws S_WriteAll P_WriteAll S_Rfc6455 P_Rfc6455 S_RfcTalk P_RfcTalk.
Import ListNotations.
Local Open Scope N_scope.

(** What is written for any objects, one after another, is what a client, or a server, may say to tell the messages [ms] exactly if
    no reserved bit is set and the frames that the objects stand for tell them. *)
Theorem C119_frames : forall client ds b ms, Forall talk_typed ds -> written_all ds b ->
  ((exists fs, b = wframes_octets fs /\ rfc_said client fs ms) <-> Forall (fun d => no_rsv (fst d)) ds /\ rfc_said client (map wf_of ds) ms).
Proof. exact say_iff. Qed.
Print Assumptions C119_frames.
(** Octets tell one list of messages at most. *)
Theorem C119_unique : forall client b ms ms', may_say client b ms -> may_say client b ms' -> ms = ms'.
Proof. exact say_one. Qed.
Print Assumptions C119_unique.
(** Owned messages, one after another: their octets are what a client, or a server, may say exactly if keys are given to all of them,
    or to none; all lengths are below 2^63; all codes are such as may be sent; and no data follows a close.  They then tell these
    messages. *)
Theorem C119_owned : forall client mks b ms, Forall owned_typed (map fst mks) ->
  Forall (fun mk => blen (owned_data (fst mk)) < 2 ^ 64 /\ key_ok (snd mk)) mks ->
  written_all (map (fun mk => (owned_df (fst mk), snd mk)) mks) b ->
  (may_say client b ms <-> ms = map fst mks /\ own_keys client (map snd mks) /\ Forall (fun m => blen (owned_data m) < 2 ^ 63) (map fst mks) /\
     Forall code_ok (map fst mks) /\ close_last (map fst mks)).
Proof. exact owned_say. Qed.
Print Assumptions C119_owned.
(** A message whose public fields are set in any way: its octets tell what the RFC has the opcode and the payload, behind the status code
    if there is one, mean. *)
Theorem C119_message : forall client m key b ms, blen (df_take (message_df m)) < 2 ^ 64 -> key_ok key -> write_to (message_df m) key = Ok b ->
  (may_say client b ms <-> exists o, ms = [o] /\ meant (mtype_u8 (m_op m)) (df_take (message_df m)) o /\ own_keys client [key] /\
     blen (df_take (message_df m)) < 2 ^ 63 /\ code_ok o).
Proof. exact message_say. Qed.
Print Assumptions C119_message.

(** A text with a status code is written, and does not tell this text: the code stands in front. *)
Theorem C119_text_code_refuted : forall client c s key, c < 65536 -> blen s + 2 < 2 ^ 63 -> key_ok key ->
  exists b, write_to (message_df {| m_op := TText; m_code := Some c; m_payload := s |}) key = Ok b /\
    (forall ms, may_say client b ms -> ms = [OwText ([c / 256; c mod 256] ++ s)]) /\ ~ may_say client b [OwText s].
Proof.
  intros client c s key C L K. set (m := {| m_op := TText; m_code := Some c; m_payload := s |}).
  assert (TK : df_take (message_df m) = [c / 256; c mod 256] ++ s) by (cbn [m message_df m_code m_payload df_take]; rewrite be_enc_2 by exact C; reflexivity).
  assert (LT : blen (df_take (message_df m)) = blen s + 2) by (rewrite TK; unfold blen; rewrite app_length; cbn [length]; lia).
  destruct (message_df_ok m) as [D1 D2].
  assert (W : exists b, write_to (message_df m) key = Ok b).
  { eexists. apply write_to_spec; [exact (conj D1 D2)|cbn; lia|cbn; lia|rewrite D2, LT; lia]. }
  destruct W as [b W]. exists b. split; [exact W|].
  assert (A : forall ms, may_say client b ms -> ms = [OwText ([c / 256; c mod 256] ++ s)]).
  { intros ms H. apply (message_say client m key b ms) in H; [|rewrite LT; lia|exact K|exact W]. destruct H as (o & -> & M & _). rewrite TK in M. cbn [m m_op mtype_u8] in M.
    remember ([c / 256; c mod 256] ++ s) as p. inversion M; subst. reflexivity. }
  split; [exact A|]. intros H. apply A in H. injection H as H. apply (f_equal (@length N)) in H. cbn in H. lia.
Qed.
Print Assumptions C119_text_code_refuted.
(** A text that is not UTF-8 is written when it is set as a message's payload, or in a frame of its own, and tells nothing. *)
Theorem C119_text_refuted : forall client s key, ~ is_utf8 s -> blen s < 2 ^ 63 -> key_ok key ->
  exists b, write_to (message_df {| m_op := TText; m_code := None; m_payload := s |}) key = Ok b /\ forall ms, ~ may_say client b ms.
Proof.
  intros client s key U L K. set (m := {| m_op := TText; m_code := None; m_payload := s |}). destruct (message_df_ok m) as [D1 D2].
  assert (LT : df_take (message_df m) = s) by reflexivity.
  assert (W : exists b, write_to (message_df m) key = Ok b).
  { eexists. apply write_to_spec; [exact (conj D1 D2)|cbn; lia|cbn; lia|rewrite D2, LT; lia]. }
  destruct W as [b W]. exists b. split; [exact W|]. intros ms H.
  apply (message_say client m key b ms) in H; [|rewrite LT; lia|exact K|exact W]. destruct H as (o & -> & M & _). rewrite LT in M. cbn [m m_op mtype_u8] in M.
  inversion M. contradiction.
Qed.
Print Assumptions C119_text_refuted.
(** The same for a close whose reason is not UTF-8, or that is one octet long. *)
Theorem C119_close_refuted : forall client code s key, match code with Some c => c < 65536 /\ ~ is_utf8 s | None => blen s = 1 end -> blen s <= 123 -> key_ok key ->
  exists b, write_to (message_df {| m_op := TClose; m_code := code; m_payload := s |}) key = Ok b /\ forall ms, ~ may_say client b ms.
Proof.
  intros client code s key U L K. set (m := {| m_op := TClose; m_code := code; m_payload := s |}). destruct (message_df_ok m) as [D1 D2].
  assert (LT : blen (df_take (message_df m)) <= 125).
  { destruct code as [c|]; cbn [m message_df m_code m_payload df_take]; [rewrite be_enc_2 by apply U; unfold blen in *; rewrite app_length; cbn [length]; lia|lia]. }
  assert (W : exists b, write_to (message_df m) key = Ok b).
  { eexists. apply write_to_spec; [exact (conj D1 D2)|cbn; lia|intros _; rewrite D2; exact LT|rewrite D2; lia]. }
  destruct W as [b W]. exists b. split; [exact W|]. intros ms H.
  apply (message_say client m key b ms) in H; [|lia|exact K|exact W]. destruct H as (o & -> & M & _). cbn [m m_op mtype_u8 message_df m_code m_payload df_take] in M.
  destruct code as [c|].
  - destruct U as [C U]. rewrite be_enc_2 in M by exact C. remember ([c / 256; c mod 256] ++ s) as p eqn:E. inversion M as [| | |a b' r R| |]; subst.
    + discriminate.
    + cbn [app] in *. match goal with H : _ :: _ = _ :: _ |- _ => injection H as _ _ -> end. contradiction.
  - destruct s as [|x [|y s]]; [discriminate U| |unfold blen in U; cbn [length] in U; lia]. inversion M.
Qed.
Print Assumptions C119_close_refuted.
(** Frames with a reserved bit, control frames that are not the last of their message, and continuations of nothing are written, and tell nothing. *)
Theorem C119_frame_refuted : forall client fin rsv op data key, blen data <= 125 -> key_ok key ->
  rsv <> (false, false, false) \/ 8 <= opcode_u8 op /\ fin = false \/ op = Continuation \/ 3 <= opcode_u8 op <= 7 \/ 11 <= opcode_u8 op ->
  let d := {| d_fin := fin; d_rsv := rsv; d_op := op; d_data := data |} in
  exists b, write_to (dataframe_df d) key = Ok b /\ forall ms, ~ may_say client b ms.
Proof.
  intros client fin rsv op data key L K BAD d. destruct (dataframe_df_ok d) as [D1 D2].
  assert (W : exists b, write_to (dataframe_df d) key = Ok b).
  { eexists. apply write_to_spec; [exact (conj D1 D2)|destruct op; cbn; lia|intros _; exact L|cbn; lia]. }
  destruct W as [b W]. exists b. split; [exact W|]. intros ms H.
  assert (T : Forall talk_typed [(dataframe_df d, key)]).
  { constructor; [|constructor]. unfold talk_typed. cbn [fst snd]. rewrite <- D1. split; [exact D2|]. split; [rewrite D2; cbn; lia|exact K]. }
  apply (say_iff client _ b ms T) in H; [|exists [b]; split; [constructor; [exact W|constructor]|cbn [concat]; rewrite app_nil_r; reflexivity]].
  destruct H as [NR (_ & _ & _ & TK & _)]. apply Forall_inv in NR. unfold no_rsv in NR. cbn [fst dataframe_df df_rsv d d_rsv] in NR.
  unfold wf_of in TK. cbn [map fst snd dataframe_df df_last df_opcode df_chunks concat d d_fin d_op d_data] in TK. rewrite app_nil_r in TK.
  destruct BAD as [B|[[B ->]|[->|B]]]; [contradiction| | |]; inversion TK; subst; cbn in *; try lia;
    match goal with H : rfc_talk (Some _) [] _ |- _ => inversion H | _ => idtac end.
Qed.
Print Assumptions C119_frame_refuted.
(** Codes that may not be sent, data after a close, frames of a client without a key, frames of a server with one, and lengths from
    2^63 on are written. *)
Theorem C119_owned_refuted :
  (forall client c, c < 1000 \/ 4999 < c < 65536 \/ c = 1004 \/ c = 1005 \/ c = 1006 \/ c = 1015 -> forall key, key_ok key ->
     exists b, write_to (owned_df (OwClose (Some {| cd_code := c; cd_reason := [] |}))) key = Ok b /\ forall ms, ~ may_say client b ms) /\
  (forall (client : bool) m key, owned_typed m -> blen (owned_data m) < 2 ^ 64 -> (8 <= df_opcode (owned_df m) -> blen (owned_data m) <= 125) -> key_ok key ->
     (if client then key = None else key <> None) \/ 2 ^ 63 <= blen (owned_data m) ->
     exists b, write_to (owned_df m) key = Ok b /\ forall ms, ~ may_say client b ms) /\
  (forall client s k1 k2, is_utf8 s -> blen s < 2 ^ 63 -> key_ok k1 -> key_ok k2 ->
     exists b1 b2, write_to (owned_df (OwClose None)) k1 = Ok b1 /\ write_to (owned_df (OwText s)) k2 = Ok b2 /\ forall ms, ~ may_say client (b1 ++ b2) ms).
Proof.
  assert (OK : forall m key, owned_typed m -> blen (owned_data m) < 2 ^ 64 -> (8 <= df_opcode (owned_df m) -> blen (owned_data m) <= 125) -> exists b, write_to (owned_df m) key = Ok b).
  { intros m key T L C. destruct (owned_df_ok m) as [D1 D2]. eexists. apply write_to_spec; [exact (conj D1 D2)|destruct m; cbn; lia| |]; rewrite D2, D1, owned_chunks by exact T; assumption. }
  assert (ONE : forall (client : bool) m key b ms, owned_typed m -> blen (owned_data m) < 2 ^ 64 -> key_ok key -> write_to (owned_df m) key = Ok b -> may_say client b ms ->
            (if client then key <> None else key = None) /\ blen (owned_data m) < 2 ^ 63 /\ code_ok m).
  { intros client m key b ms T L K W H. apply (owned_say client [(m, key)] b ms) in H; [| | |].
    - destruct H as (_ & K' & L' & C & _). split; [exact (Forall_inv K')|]. split; [exact (Forall_inv L')|exact (Forall_inv C)].
    - constructor; [exact T|constructor].
    - constructor; [exact (conj L K)|constructor].
    - exists [b]. split; [constructor; [exact W|constructor]|cbn [concat]; rewrite app_nil_r; reflexivity]. }
  split; [|split].
  - intros client c C key K. set (m := OwClose (Some {| cd_code := c; cd_reason := [] |})).
    assert (T : owned_typed m) by (split; [cbn; lia|apply utf8_valid_iff; reflexivity]).
    assert (B : blen (owned_data m) = 2) by reflexivity.
    destruct (OK m key T) as [b W]; [rewrite B; lia|rewrite B; lia|]. exists b. split; [exact W|]. intros ms H.
    destruct (ONE client m key b ms T) as (_ & _ & CO); [rewrite B; lia|exact K|exact W|exact H|]. destruct (CO _ eq_refl) as [R NI]. cbn [cd_code] in *.
    cbn [In] in NI. destruct C as [C|[C|[->|[->|[->| ->]]]]]; try lia; apply NI; auto 6.
  - intros client m key T L C K BAD. destruct (OK m key T L C) as [b W]. exists b. split; [exact W|]. intros ms H.
    destruct (ONE client m key b ms T L K W H) as (K' & L' & _). destruct BAD as [B|B]; [destruct client; contradiction|lia].
  - intros client s k1 k2 U L K1 K2. assert (B : blen (owned_data (OwClose None)) = 0) by reflexivity.
    destruct (OK (OwClose None) k1) as [b1 W1]; [exact I|rewrite B; lia|rewrite B; lia|].
    destruct (OK (OwText s) k2) as [b2 W2]; [exact U|cbn [owned_data]; lia|cbn; lia|]. exists b1, b2. split; [exact W1|]. split; [exact W2|]. intros ms H.
    apply (owned_say client [(OwClose None, k1); (OwText s, k2)] (b1 ++ b2) ms) in H.
    + destruct H as (_ & _ & _ & _ & Z). discriminate (Z [] None [OwText s] (OwText s) eq_refl (or_introl eq_refl)).
    + repeat apply Forall_cons; [exact I|exact U|constructor].
    + repeat apply Forall_cons; [split; [cbn [fst]; rewrite B; lia|exact K1]|split; [cbn [fst owned_data]; lia|exact K2]|constructor].
    + exists [b1; b2]. split; [repeat apply Forall2_cons; auto|]. cbn [concat]. rewrite app_nil_r. reflexivity.
Qed.
Print Assumptions C119_owned_refuted.

(** A client that sends a ping, a text and a close. *)
Example C119_owned_example :
  let mks := [(OwPing [1], Some (1, 2, 3, 4)); (OwText (str "hi"), Some (5, 6, 7, 8)); (OwClose (Some {| cd_code := 1000; cd_reason := str "bye" |}), Some (0, 0, 0, 0))] in
  exists b, written_all (map (fun mk => (owned_df (fst mk), snd mk)) mks) b /\ may_say true b (map fst mks) /\ ~ may_say false b (map fst mks).
Proof.
  intros mks. assert (W : exists b, written_all (map (fun mk => (owned_df (fst mk), snd mk)) mks) b).
  { eexists. exists [[137; 129; 1; 2; 3; 4; 0]; [129; 130; 5; 6; 7; 8; 109; 111]; [136; 133; 0; 0; 0; 0; 3; 232; 98; 121; 101]]. split; [|reflexivity]. do 3 (apply Forall2_cons; [vm_compute; reflexivity|]). constructor. }
  destruct W as [b W]. exists b. split; [exact W|].
  assert (T : Forall owned_typed (map fst mks)).
  { repeat apply Forall_cons; [exact I|apply utf8_valid_iff; reflexivity|split; [cbn; lia|apply utf8_valid_iff; reflexivity]|constructor]. }
  assert (R : Forall (fun mk => blen (owned_data (fst mk)) < 2 ^ 64 /\ key_ok (snd mk)) mks).
  { do 3 (apply Forall_cons; [split; [vm_compute; reflexivity|repeat split; vm_compute; reflexivity]|]). constructor. }
  split.
  - apply (owned_say true mks _ _ T R W). split; [reflexivity|]. split; [repeat apply Forall_cons; try discriminate; constructor|].
    split; [do 3 (apply Forall_cons; [vm_compute; reflexivity|]); constructor|]. split.
    + repeat apply Forall_cons; try (intros c E; discriminate E); [|constructor]. intros c [= <-]. cbn. split; [lia|]. intuition discriminate.
    + intros [|x1 [|x2 [|x3 a]]] c b0 x E IN; cbn in E; try discriminate E; [injection E as _ _ _ <-; destruct IN|]. injection E as _ _ _ E. destruct a; discriminate E.
  - intros H. apply (owned_say false mks _ _ T R W) in H. destruct H as (_ & K & _). discriminate (Forall_inv K).
Qed.
Example C119_text_code_example : exists b, write_to (message_df {| m_op := TText; m_code := Some 1000; m_payload := str "a" |}) None = Ok b /\ b = [129; 3; 3; 232; 97].
Proof. eexists. split; [vm_compute; reflexivity|reflexivity]. Qed.
