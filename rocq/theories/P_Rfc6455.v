(** Proofs for C111. *)
From Coq Require Import NArith ZArith Lia Bool List ZifyBool ZifyNat ZifyN.
From Verif Require Import Base S_Utf8 P_Base M_Ws S_Ws S_WsApi P_Ws S_WsTalk P_WsTalk S_Rfc6455.
Import ListNotations.
Local Open Scope N_scope.

Lemma meant_says o p m : meant (opcode_u8 o) p m <-> says o p m.
Proof.
  split.
  - intros H. remember (opcode_u8 o) as n eqn:E. destruct H; destruct o; try discriminate E; constructor; assumption.
  - intros H. destruct H; constructor; assumption.
Qed.
(** A frame as the reader gives it. *)
Definition shows (f : wframe) (d : dataframe) : Prop :=
  d_rsv d = (false, false, false) /\ wf_fin f = d_fin d /\ wf_op f = opcode_u8 (d_op d) /\ wf_data f = d_data d /\
  control_ok (d_fin d) (opcode_u8 (d_op d)) (blen (d_data d)) /\ key_ok (wf_key f) /\ blen (wf_data f) < 2 ^ 64.
Lemma shows_read f d x : shows f d -> read_dataframe (wframe_octets f ++ x) = Ok (d, x).
Proof.
  intros (R & F & O & D & C & _ & L). unfold wframe_octets. rewrite O, F, D, read_dataframe_spec; [|assumption|congruence].
  destruct d. cbn in *. subst. reflexivity.
Qed.
Lemma shows_frames fs ds : Forall2 shows fs ds -> forall x, read_frames (length fs) (wframes_octets fs ++ x) = Ok (ds, x).
Proof.
  induction 1 as [|f d fs ds H _ IH]; intros x; [reflexivity|]. cbn [length read_frames]. unfold wframes_octets. cbn [map concat].
  rewrite <- app_assoc, (shows_read _ _ _ H). cbn [bind]. change (concat (map wframe_octets fs)) with (wframes_octets fs). rewrite IH. reflexivity.
Qed.
Lemma frames_shown k : forall l ds r, bytes_ok l -> read_frames k l = Ok (ds, r) -> Forall (fun d => d_rsv d = (false, false, false)) ds ->
  exists fs, length fs = k /\ l = wframes_octets fs ++ r /\ Forall2 shows fs ds.
Proof.
  induction k as [|k IH]; intros l ds r B H Z; cbn [read_frames] in H.
  - injection H as <- <-. exists []. repeat split. constructor.
  - apply bind_ok in H as ([d l1] & R & H). apply bind_ok in H as ([ds' l2] & W & H). injection H as <- <-. inversion Z as [|? ? Zd Zs]; subst.
    apply read_dataframe_inv in R as (key & E & C & L & K); [|exact B]. rewrite Zd in E. cbn [fst snd] in E.
    assert (B1 : bytes_ok l1) by (rewrite E in B; apply bytes_ok_app in B as [_ B]; exact B).
    destruct (IH _ _ _ B1 W Zs) as (fs & Lf & E1 & F). exists (mkWF (d_fin d) (opcode_u8 (d_op d)) key (d_data d) :: fs).
    split; [cbn; congruence|]. split.
    + rewrite E, E1. unfold wframes_octets. cbn [map concat]. rewrite <- app_assoc. reflexivity.
    + constructor; [|exact F]. unfold shows. cbn [wf_fin wf_op wf_key wf_data]. auto 10.
Qed.
Definition talk_state (st : option (opcode * bytes)) : option (N * bytes) := match st with Some (o, p) => Some (opcode_u8 o, p) | None => None end.
(** The state is that of a data message. *)
Definition state_data (st : option (opcode * bytes)) : Prop := match st with Some (o, _) => o = OText \/ o = OBinary | None => True end.
Lemma says_control o p m : is_control o -> says o p m -> opcode_u8 o = 8 \/ opcode_u8 o = 9 \/ opcode_u8 o = 10.
Proof. intros C H. destruct H; cbn; auto; unfold is_control in C; cbn in C; lia. Qed.
Lemma says_data o p m : ~ is_control o -> says o p m -> o = OText \/ o = OBinary.
Proof. intros C H. destruct H; auto; destruct C; unfold is_control; cbn; lia. Qed.
Lemma talk_says st ds ms : talk st ds ms -> forall o acc, st = Some (o, acc) -> exists p m, says o p m.
Proof.
  induction 1 as [|st o p m ds ms C S T IH|o p m ds ms C S T IH|o p ds ms C T IH|o acc p ds ms T IH|o acc p m ds ms S T IH]; intros o' acc' E; try discriminate E.
  - eapply IH. exact E.
  - injection E as -> ->. eapply IH. reflexivity.
  - injection E as -> ->. eauto.
Qed.
Lemma talk_rfc st ds ms : talk st ds ms -> forall fs, Forall2 shows fs ds -> state_data st -> rfc_talk (talk_state st) fs ms.
Proof.
  induction 1 as [|st o p m ds ms C S T IH|o p m ds ms C S T IH|o p ds ms C T IH|o acc p ds ms T IH|o acc p m ds ms S T IH]; intros fs F D;
    inversion F as [|[ff fo fk fd] d' fs' ds' F1 F2]; subst; [constructor|..]; destruct F1 as (_ & E1 & E2 & E3 & E4 & _); cbn in E1, E2, E3, E4; subst.
  - apply rt_control; [eapply says_control; eassumption|apply E4; exact C|apply meant_says, S|]. apply IH; assumption.
  - apply rt_whole; [destruct (says_data _ _ _ C S) as [-> | ->]; auto|apply meant_says, S|]. exact (IH _ F2 I).
  - destruct (talk_says _ _ _ T _ _ eq_refl) as (q & m & S). pose proof (says_data _ _ _ C S) as X.
    apply rt_first; [destruct X as [-> | ->]; auto|]. exact (IH _ F2 X).
  - apply rt_middle. exact (IH _ F2 D).
  - apply rt_last; [apply meant_says, S|]. exact (IH _ F2 I).
Qed.
Definition op_of (n : N) : opcode := match opcode_new n with Some o => o | None => Control5 end.
Definition shown (f : wframe) : dataframe := plain_frame (wf_fin f) (op_of (wf_op f)) (wf_data f).
Lemma rfc_shown st fs ms : rfc_talk st fs ms -> frames_range fs -> Forall2 shows fs (map shown fs).
Proof.
  induction 1 as [|st op k p m fs ms O L M T IH|op k p m fs ms O M T IH|op k p fs ms O T IH|op acc k p fs ms T IH|op acc k p m fs ms M T IH]; intros R;
    [constructor|..]; inversion R as [|? ? R1 R2]; subst; cbn [wf_key wf_data] in R1; destruct R1; cbn [map]; constructor; auto; unfold shows, shown, plain_frame; cbn.
  - unfold op_of, control_ok. destruct O as [-> |[-> | ->]]; cbn; auto 10.
  - unfold op_of, control_ok. destruct O as [-> | ->]; cbn; repeat match goal with |- _ /\ _ => split end; auto; lia.
  - unfold op_of, control_ok. destruct O as [-> | ->]; cbn; repeat match goal with |- _ /\ _ => split end; auto; lia.
  - unfold control_ok. repeat match goal with |- _ /\ _ => split end; auto; lia.
  - unfold control_ok. repeat match goal with |- _ /\ _ => split end; auto; lia.
Qed.
Definition state_op (st : option (N * bytes)) : option (opcode * bytes) := match st with Some (n, p) => Some (op_of n, p) | None => None end.
Definition state_ok (st : option (N * bytes)) : Prop := match st with Some (n, _) => n = 1 \/ n = 2 | None => True end.
Lemma rfc_is_talk st fs ms : rfc_talk st fs ms -> state_ok st -> talk (state_op st) (map shown fs) ms.
Proof.
  induction 1 as [|st op k p m fs ms O L M T IH|op k p m fs ms O M T IH|op k p fs ms O T IH|op acc k p fs ms T IH|op acc k p m fs ms M T IH]; intros K; cbn [map state_op shown].
  - constructor.
  - unfold shown. cbn [wf_fin wf_op wf_data]. apply tk_control; [|apply meant_says|apply IH, K].
    + unfold is_control. destruct O as [-> |[-> | ->]]; cbn; lia.
    + destruct O as [-> |[-> | ->]]; exact M.
  - unfold shown. cbn [wf_fin wf_op wf_data]. apply tk_whole; [|apply meant_says|apply (IH I)].
    + unfold is_control. destruct O as [-> | ->]; cbn; lia.
    + destruct O as [-> | ->]; exact M.
  - unfold shown. cbn [wf_fin wf_op wf_data]. apply tk_first; [|apply IH, O]. unfold is_control. destruct O as [-> | ->]; cbn; lia.
  - apply tk_middle. apply IH, K.
  - apply tk_last; [|apply (IH I)]. apply meant_says. destruct K as [-> | ->]; exact M.
Qed.
Lemma talk_plain st ds ms : talk st ds ms -> Forall (fun d => d_rsv d = (false, false, false)) ds.
Proof. induction 1; constructor; auto. Qed.
Lemma said_received fs ms rest : frames_range fs -> rfc_talk None fs ms -> ws_receive (length fs) [] (wframes_octets fs ++ rest) = Ok (ms, [], rest).
Proof.
  intros R T. apply receive_frames. exists (map shown fs). split; [apply shows_frames; eapply rfc_shown; eassumption|].
  apply (talk_receive _ None); [apply (rfc_is_talk None _ _ T I)|reflexivity].
Qed.
Lemma accepted_iff k l ms r : bytes_ok l -> (ws_receive k [] l = Ok (ms, [], r) <->
  exists fs, length fs = k /\ l = wframes_octets fs ++ r /\ frames_range fs /\ rfc_talk None fs ms).
Proof.
  intros B. split.
  - intros H. apply receive_exact in H as (ds & R & T); [|exact B]. destruct (frames_shown _ _ _ _ B R (talk_plain _ _ _ T)) as (fs & L & E & F).
    exists fs. split; [exact L|]. split; [exact E|]. split; [|exact (talk_rfc _ _ _ T _ F I)].
    clear - F. induction F as [|f d fs ds H _ IH]; constructor; [|exact IH]. destruct H as (_ & _ & _ & _ & _ & K & L). auto.
  - intros (fs & <- & -> & R & T). apply said_received; assumption.
Qed.
(** The frames are determined by their octets. *)
Lemma frame_cut f f' d d' x x' : shows f d -> shows f' d' -> wframe_octets f ++ x = wframe_octets f' ++ x' -> f = f' /\ x = x'.
Proof.
  intros S S' E. pose proof (shows_read _ _ x S) as A. pose proof (shows_read _ _ x' S') as A'. rewrite E, A' in A. injection A as -> ->.
  split; [|reflexivity]. destruct S as (_ & F & O & D & C & K & L), S' as (_ & F' & O' & D' & C' & K' & L').
  assert (X : wf_key f = wf_key f').
  { unfold wframe_octets, spec_frame in E. rewrite <- !app_assoc in E. apply (f_equal read_header) in E.
    rewrite !read_header_spec in E; try (rewrite ?O, ?O', ?F, ?F', ?D, ?D'; assumption || apply opcode_u8_lt); [|congruence..].
    apply (f_equal (fun r => match r with Ok (h, _) => wh_mask h | _ => None end)) in E. exact E. }
  destruct f, f'; cbn in *; congruence.
Qed.
Lemma frames_cut fs ds : Forall2 shows fs ds -> forall fs' ds' x x', Forall2 shows fs' ds' -> length fs = length fs' ->
  wframes_octets fs ++ x = wframes_octets fs' ++ x' -> fs = fs'.
Proof.
  induction 1 as [|f d fs ds H _ IH]; intros fs' ds' x x' F' L E; destruct F' as [|f' d' fs' ds' H' F']; try discriminate L; [reflexivity|].
  unfold wframes_octets in E. cbn [map concat] in E. rewrite <- !app_assoc in E. destruct (frame_cut _ _ _ _ _ _ H H' E) as [-> E1].
  f_equal. eapply IH; [exact F'|cbn in L; congruence|exact E1].
Qed.
Lemma said_iff client fs ms r : frames_range fs -> rfc_talk None fs ms ->
  ((exists fs' ms', length fs' = length fs /\ wframes_octets fs ++ r = wframes_octets fs' ++ r /\ rfc_said client fs' ms') <->
   masks_ok client fs /\ lengths_ok fs /\ Forall code_ok ms /\ close_last ms).
Proof.
  intros R T. split.
  - intros (fs' & ms' & L & E & R' & M & N & T' & C & Z). pose proof (said_received _ _ r R T) as A. pose proof (said_received _ _ r R' T') as A'.
    rewrite E, <- L, A' in A. injection A as ->.
    rewrite (frames_cut _ _ (rfc_shown _ _ _ T R) _ _ r r (rfc_shown _ _ _ T' R') (eq_sym L) E). auto.
  - intros (M & N & C & Z). exists fs, ms. split; [reflexivity|]. split; [reflexivity|]. unfold rfc_said. auto 10.
Qed.
Lemma sent_one m key : api_message m ->
  exists f, write_to (message_df m) key = Ok (wframe_octets f) /\ wf_key f = key /\ blen (wf_data f) < 2 ^ 64 /\
    forall fs ms, rfc_talk None fs ms -> rfc_talk None (f :: fs) (owned_of_message m :: ms).
Proof.
  intros A. exists (mkWF true (mtype_u8 (m_op m)) key (df_take (message_df m))).
  assert (W : write_to (message_df m) key = Ok (wframe_octets (mkWF true (mtype_u8 (m_op m)) key (df_take (message_df m))))).
  { rewrite write_to_spec; [reflexivity|apply message_df_ok| |apply message_frame, A|apply message_size, A].
    cbn [message_df df_opcode]. rewrite mtype_opcode. apply opcode_u8_lt. }
  split; [exact W|]. split; [reflexivity|]. destruct (message_df_ok m) as [Ht Hs]. cbn [wf_data]. split; [rewrite <- Hs; apply message_size, A|].
  intros fs ms T. destruct A as [s U L|s L|s L|s L| |c s C U L]; cbn [message_df m_op m_code m_payload mtype_u8 df_take msg_text msg_binary msg_ping msg_pong msg_close msg_close_because owned_of_message].
  - rewrite utf8_lossy_valid by (apply utf8_valid_iff, U). apply rt_whole; [auto|constructor; exact U|exact T].
  - apply rt_whole; [auto|constructor|exact T].
  - apply rt_control; [auto|exact L|constructor|exact T].
  - apply rt_control; [auto|exact L|constructor|exact T].
  - apply rt_control; [auto|cbv; discriminate|constructor|exact T].
  - rewrite utf8_lossy_valid by (apply utf8_valid_iff, U). rewrite be_enc_2 by exact C. apply rt_control; [auto|rewrite blen_app; change (blen [c / 256; c mod 256]) with 2; lia| |exact T].
    cbn [app]. pose proof (me_because (c / 256) (c mod 256) s U) as X. replace (c / 256 * 256 + c mod 256) with c in X by lia. exact X.
Qed.
Lemma sent_all ms keys : Forall api_message ms -> length keys = length ms ->
  exists fs, Forall2 (fun mk f => write_to (message_df (fst mk)) (snd mk) = Ok (wframe_octets f)) (combine ms keys) fs /\ map wf_key fs = keys /\
    rfc_talk None fs (map owned_of_message ms).
Proof.
  intros A. revert keys. induction A as [|m ms Am _ IH]; intros [|k keys] L; try discriminate L.
  - exists []. split; [constructor|]. split; [reflexivity|constructor].
  - destruct (IH keys ltac:(cbn in L; congruence)) as (fs & F & K & T). destruct (sent_one m k Am) as (f & W & Ek & _ & X).
    exists (f :: fs). split; [constructor; assumption|]. split; [cbn [map]; rewrite Ek, K; reflexivity|]. apply X, T.
Qed.
