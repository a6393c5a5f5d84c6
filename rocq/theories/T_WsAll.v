(** Property C104: what the WebSocket readers refuse, with the error for each input. *)
From Coq Require Import Ascii String NArith ZArith Bool List Lia.
From Verif Require Import Base S_Utf8 P_Base M_Ws S_Ws S_WsApi S_WsAll P_WsAll.
Import ListNotations.
Local Open Scope N_scope.

(** ** The error of every refused header and frame *)
Theorem C104_header_exact : forall l e, bytes_ok l -> read_header l = Err e <-> head_bad l e.
Proof. exact header_bad_iff. Qed.
Print Assumptions C104_header_exact.

Theorem C104_frame_exact : forall l e, bytes_ok l -> read_dataframe l = Err e <-> frame_bad None l e.
Proof. exact (frame_bad_iff None). Qed.
Print Assumptions C104_frame_exact.

Theorem C104_limited_exact : forall lim l e, bytes_ok l -> read_dataframe_with_limit lim l = Err e <-> frame_bad (Some lim) l e.
Proof. intros lim. exact (frame_bad_iff (Some lim)). Qed.
Print Assumptions C104_limited_exact.

(** The two lists together are complete and do not meet, and no input has two errors. *)
Theorem C104_frame_complete : forall limit l, bytes_ok l ->
  (frame_good limit l \/ exists e, frame_bad limit l e) /\
  (forall e, frame_good limit l -> frame_bad limit l e -> False) /\
  (forall e e', frame_bad limit l e -> frame_bad limit l e' -> e = e').
Proof.
  intros limit l H. split; [exact (frame_cases limit l H)|]. split.
  - intros e. exact (frame_exclusive limit l e H).
  - intros e e'. exact (frame_one_error limit l e e' H).
Qed.
Print Assumptions C104_frame_complete.

(** The accepted frames are those of [frame_good]. *)
Theorem C104_frame_good : forall lim l, bytes_ok l ->
  ((exists d r, read_dataframe l = Ok (d, r)) <-> frame_good None l) /\
  ((exists d r, read_dataframe_with_limit lim l = Ok (d, r)) <-> frame_good (Some lim) l).
Proof. intros lim l H. split; [exact (frame_good_iff None l H)|exact (frame_good_iff (Some lim) l H)]. Qed.
Print Assumptions C104_frame_good.

(** ** "More data" *)
(** Any other error stays whatever octets follow. *)
Theorem C104_error_final : forall limit l e x, frame_bad limit l e -> e <> more_data -> frame_bad limit (l ++ x) e.
Proof. exact frame_bad_final. Qed.
Print Assumptions C104_error_final.

(** An input answered with "more data" can be completed to a frame, unless it is one of [never_frame]. *)
Theorem C104_more_data_partial : forall l, bytes_ok l -> read_dataframe l = Err more_data ->
  (exists x, frame_good None (l ++ x)) \/ never_frame l.
Proof. intros l H R. apply more_data_open; [exact H|]. apply frame_bad_iff; [exact H|exact R]. Qed.
Print Assumptions C104_more_data_partial.

(** Those are never accepted, whatever follows: the answer "more data" to them is wrong. *)
Theorem C104_never_frame : forall lim l x y, bytes_ok (l ++ x) -> never_frame l ->
  read_dataframe (l ++ x) <> Ok y /\ read_dataframe_with_limit lim (l ++ x) <> Ok y.
Proof. intros lim l x y H N. split; [exact (never_never None l x H N y)|exact (never_never (Some lim) l x H N y)]. Qed.
Print Assumptions C104_never_frame.

Theorem C104_more_data_refuted : exists l, bytes_ok l /\ read_dataframe l = Err more_data /\
  forall x y, bytes_ok x -> read_dataframe (l ++ x) <> Ok y.
Proof.
  exists [9]. split; [repeat constructor|]. split; [reflexivity|]. intros x y H.
  refine (proj1 (C104_never_frame 0 [9] x y _ _)).
  - apply bytes_ok_app. split; [repeat constructor|exact H].
  - apply (nf_part false false false 9). lia.
Qed.
Print Assumptions C104_more_data_refuted.

(** ** Messages *)
Theorem C104_message_exact : forall frames,
  (forall m, msg_from_dataframes frames = Ok m <-> message_good frames m) /\
  (forall e, msg_from_dataframes frames = Err e <-> message_bad frames e).
Proof. intros frames. split; [exact (message_good_iff frames)|exact (message_bad_iff frames)]. Qed.
Print Assumptions C104_message_exact.

Theorem C104_owned_exact : forall frames e, owned_from_dataframes frames = Err e <-> message_bad frames e.
Proof. exact owned_bad_iff. Qed.
Print Assumptions C104_owned_exact.

Theorem C104_message_complete : forall frames, (exists m, message_good frames m) \/ (exists e, message_bad frames e).
Proof. exact message_cases. Qed.
Print Assumptions C104_message_complete.

(** ** Concrete cases *)
Example C104_frames :
  frame_bad None [130; 126; 0; 125; 9] (EWs (DataFrameError "Invalid data frame length")) /\
  frame_bad None [130; 127; 0; 0; 0; 0; 0; 0; 255; 255] (EWs (DataFrameError "Invalid data frame length")) /\
  frame_bad None [137; 126; 0; 126] (EWs (DataFrameError "Control frame length too long")) /\
  frame_bad None [9; 0] (EWs (ProtocolError "Illegal fragmented control frame")) /\
  frame_bad None [9; 126; 0] more_data /\
  frame_bad None [130; 129; 1; 2; 3] more_data /\
  frame_bad None [130; 2; 7] more_data /\
  frame_bad (Some 1) [130; 2] (EIo InvalidData) /\
  frame_bad (Some 2) [130; 2; 7] more_data.
Proof. repeat split; (apply frame_bad_iff; [repeat constructor|reflexivity]). Qed.

Definition frame_of (op : N) (data : bytes) : dfable := dataframe_df (frag_frame (true, op, data)).

Example C104_messages :
  message_bad [frame_of 1 [104]; frame_of 1 [105]] (EWs (ProtocolError "Unexpected non-continuation data frame")) /\
  message_bad [frame_of 0 [104]] (EWs (ProtocolError "Unsupported opcode received")) /\
  message_bad [frame_of 8 [3]] more_data /\
  message_bad [frame_of 8 [3; 232; 255]] (EExtension "Convert Utf8 error") /\
  message_bad [frame_of 1 [195]; frame_of 0 [40]] (EExtension "Convert Utf8 error") /\
  message_good [frame_of 1 [195]; frame_of 0 [169]] (msg_text [195; 169]) /\
  message_good [frame_of 8 [3; 232]] (msg_close_because 1000 []).
Proof. repeat match goal with |- _ /\ _ => split end; (apply message_bad_iff; reflexivity) || (apply message_good_iff; reflexivity). Qed.

Example C104_open : exists x, frame_good None ([130; 127; 0; 0; 0; 0; 0] ++ x).
Proof.
  destruct (C104_more_data_partial [130; 127; 0; 0; 0; 0; 0]) as [H|H]; [repeat constructor|reflexivity|exact H|].
  exfalso. inversion H as [r1 r2 r3 op G E|fin r1 r2 r3 op m x G L E|fin r1 r2 r3 op m x G L E|b0 m x L E].
  - destruct m; discriminate.
  - destruct fin, r1, r2, r3; cbn [bit] in *; lia.
Qed.
