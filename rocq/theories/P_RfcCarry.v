(** Proofs for C125. *)
From Coq Require Import Ascii String NArith ZArith Lia Bool List ZifyBool ZifyNat ZifyN.
From Verif Require Import Base P_Base S_Utf8 P_Huffman P_WriteAll S_WriteAll M_Ws S_Ws S_WsApi P_Ws S_WsTalk P_WsTalk S_Rfc6455 P_Rfc6455 S_RfcTalk P_RfcTalk S_RfcCarry.
Import ListNotations.
Local Open Scope N_scope.

Lemma lxor_byte x y : x < 256 -> y < 256 -> N.lxor x y < 256.
Proof.
  intros X Y. destruct (N.eq_dec (N.lxor x y) 0) as [E|E]; [lia|]. change 256 with (2 ^ 8). apply N.log2_lt_pow2; [lia|].
  eapply N.le_lt_trans; [apply N.log2_lxor|]. apply N.max_lub_lt.
  - destruct (N.eq_dec x 0) as [->|]; [reflexivity|apply N.log2_lt_pow2; [lia|exact X]].
  - destruct (N.eq_dec y 0) as [->|]; [reflexivity|apply N.log2_lt_pow2; [lia|exact Y]].
Qed.
Lemma mask_bytes a b c d p : a < 256 -> b < 256 -> c < 256 -> d < 256 -> bytes_ok p -> bytes_ok (spec_mask a b c d p).
Proof.
  intros A B C D P. unfold spec_mask. apply Forall_forall. intros x X. apply in_map_iff in X as ([i y] & <- & X). apply in_combine_r in X. unfold bytes_ok in P. rewrite Forall_forall in P.
  apply lxor_byte; [exact (P _ X)|]. cbn [fst]. generalize (Nat.modulo i 4). intros [|[|[|[|n]]]]; cbn; try assumption. destruct n; lia.
Qed.
Lemma frame_bytes f : key_ok (wf_key f) -> bytes_ok (wframe_octets f) -> bytes_ok (wf_data f).
Proof.
  unfold wframe_octets, spec_frame. intros K B. apply bytes_ok_app in B as [_ B]. destruct (wf_key f) as [[[[a b] c] d]|]; [|exact B].
  destruct K as (A & K2 & C & D). apply (mask_bytes a b c d) in B; try assumption. rewrite <- !mask_data_spec, mask_data_invol in B. exact B.
Qed.
Lemma frames_bytes fs : frames_range fs -> bytes_ok (wframes_octets fs) -> Forall (fun f => bytes_ok (wf_data f)) fs.
Proof.
  unfold frames_range, wframes_octets. induction 1 as [|f fs [K _] _ IH]; intros B; [constructor|]. cbn [map concat] in B. apply bytes_ok_app in B as [B1 B2].
  constructor; [apply frame_bytes; assumption|apply IH, B2].
Qed.
Definition carried (m : owned) : Prop := owned_typed m /\ (ow_is_control m = true -> blen (owned_data m) <= 125).
Lemma meant_typed op p m : bytes_ok p -> meant op p m -> owned_typed m /\ owned_data m = p.
Proof.
  intros B M. destruct M as [p U|p| |a b r U|p|p]; cbn [owned_typed owned_data cd_code cd_reason]; auto.
  apply bytes_ok_cons in B as [A B]. apply bytes_ok_cons in B as [B _]. unfold byte_ok in *. split; [split; [lia|exact U]|]. cbn [app]. f_equal; [lia|]. f_equal. lia.
Qed.
Lemma talk_carried st fs ms : rfc_talk st fs ms -> Forall (fun f => bytes_ok (wf_data f)) fs -> match st with Some (o, acc) => (o = 1 \/ o = 2) /\ bytes_ok acc | None => True end -> Forall carried ms.
Proof.
  induction 1 as [|st op k p m fs ms O L M T IH|op k p m fs ms O M T IH|op k p fs ms O T IH|op acc k p fs ms T IH|op acc k p m fs ms M T IH]; intros B S.
  - constructor.
  - apply Forall_cons_iff in B as [B1 B2]. cbn [wf_data] in B1. constructor; [|apply IH; assumption]. destruct (meant_typed _ _ _ B1 M) as [X Y]. split; [exact X|]. rewrite Y. auto.
  - apply Forall_cons_iff in B as [B1 B2]. cbn [wf_data] in B1. constructor; [|apply IH; [exact B2|exact Logic.I]]. destruct (meant_typed _ _ _ B1 M) as [X Y]. split; [exact X|].
    destruct M; cbn; intros K; try discriminate K; lia.
  - apply Forall_cons_iff in B as [B1 B2]. apply IH; [exact B2|]. auto.
  - apply Forall_cons_iff in B as [B1 B2]. apply IH; [exact B2|]. destruct S as [S1 S2]. split; [exact S1|]. apply bytes_ok_app. auto.
  - apply Forall_cons_iff in B as [B1 B2]. cbn [wf_data] in B1. destruct S as [S1 S2]. constructor; [|apply IH; [exact B2|exact Logic.I]].
    destruct (meant_typed op (acc ++ p) m) as [X Y]; [apply bytes_ok_app; auto|exact M|]. split; [exact X|]. destruct M; cbn; intros K; try discriminate K; lia.
Qed.
Lemma owned_write m key : carried m -> blen (owned_data m) < 2 ^ 64 -> exists b, write_to (owned_df m) key = Ok b.
Proof.
  intros [T C] L. destruct (owned_df_ok m) as [D1 D2]. eexists. apply write_to_spec; [exact (conj D1 D2)|destruct m; cbn; lia| |]; rewrite D2, D1, owned_chunks by exact T; [|exact L].
  intros K. apply C. destruct m; cbn in *; try reflexivity; lia.
Qed.
Lemma owned_write_all ms : forall keys, Forall carried ms -> Forall (fun m => blen (owned_data m) < 2 ^ 64) ms -> exists b, messages_written ms keys b.
Proof.
  unfold messages_written, written_all. induction ms as [|m ms IH]; intros keys C L; [exists [], []; split; [constructor|reflexivity]|]. destruct keys as [|k keys]; [exists [], []; split; [constructor|reflexivity]|].
  apply Forall_cons_iff in C as [C1 C2]. apply Forall_cons_iff in L as [L1 L2]. destruct (IH keys C2 L2) as (b & bs & W & ->). destruct (owned_write m k C1 L1) as [x X].
  exists (concat (x :: bs)), (x :: bs). split; [constructor; [exact X|exact W]|reflexivity].
Qed.
Lemma combine_fst {A B} (l : list A) : forall (r : list B), length r = length l -> map fst (combine l r) = l.
Proof. induction l as [|a l IH]; intros [|b r] E; try discriminate; [reflexivity|]. cbn. f_equal. apply IH. injection E as E. exact E. Qed.
Lemma combine_snd {A B} (l : list A) : forall (r : list B), length r = length l -> map snd (combine l r) = r.
Proof. induction l as [|a l IH]; intros [|b r] E; try discriminate; [reflexivity|]. cbn. f_equal. apply IH. injection E as E. exact E. Qed.
Lemma carried_on k l ms r role keys : bytes_ok l -> ws_receive k [] l = Ok (ms, [], r) -> length keys = length ms -> Forall key_ok keys -> Forall (fun m => blen (owned_data m) < 2 ^ 64) ms ->
  exists b, messages_written ms keys b /\
    forall ms', may_say role b ms' <-> ms' = ms /\ own_keys role keys /\ Forall (fun m => blen (owned_data m) < 2 ^ 63) ms /\ Forall code_ok ms /\ close_last ms.
Proof.
  intros B R E K L. apply (accepted_iff k l ms r B) in R as (fs & _ & -> & FR & T). apply bytes_ok_app in B as [B _].
  assert (C : Forall carried ms) by (apply (talk_carried None fs ms T); [apply frames_bytes; assumption|exact Logic.I]).
  destruct (owned_write_all ms keys C L) as [b W]. exists b. split; [exact W|]. intros ms'.
  rewrite (owned_say role (combine ms keys) b ms'); [rewrite combine_fst, combine_snd by exact E; reflexivity| | |exact W].
  - rewrite combine_fst by exact E. eapply Forall_impl; [|exact C]. intros m M. apply M.
  - apply Forall_forall. intros [m key] I. cbn [fst snd]. rewrite Forall_forall in L, K. split; [apply L; eapply in_combine_l, I|apply K; eapply in_combine_r, I].
Qed.
(** Frames. *)
Lemma frames_read k : forall l ds r, bytes_ok l -> read_frames k l = Ok (ds, r) ->
  length ds = k /\ Forall (fun d => control_ok (d_fin d) (opcode_u8 (d_op d)) (blen (d_data d)) /\ blen (d_data d) < 2 ^ 64) ds.
Proof.
  induction k as [|k IH]; intros l ds r B H; cbn [read_frames] in H.
  - injection H as <- <-. split; [reflexivity|constructor].
  - apply bind_ok in H as ([d l1] & R & H). apply bind_ok in H as ([ds' l2] & W & H). injection H as <- <-.
    apply read_dataframe_inv in R as (key & E & C & L & K); [|exact B].
    assert (B1 : bytes_ok l1) by (rewrite E in B; apply bytes_ok_app in B as [_ B]; exact B).
    destruct (IH _ _ _ B1 W) as [X Y]. split; [cbn; congruence|]. constructor; auto.
Qed.
Lemma frames_write ds : forall keys, Forall (fun d => control_ok (d_fin d) (opcode_u8 (d_op d)) (blen (d_data d)) /\ blen (d_data d) < 2 ^ 64) ds -> exists b, frames_written_on ds keys b.
Proof.
  unfold frames_written_on, written_all. induction ds as [|d ds IH]; intros keys C; [exists [], []; split; [constructor|reflexivity]|]. destruct keys as [|k keys]; [exists [], []; split; [constructor|reflexivity]|].
  apply Forall_cons_iff in C as [[C1 C2] C]. destruct (IH keys C) as (b & bs & W & ->). destruct (dataframe_df_ok d) as [D1 D2].
  assert (X : exists x, write_to (dataframe_df d) k = Ok x).
  { eexists. apply write_to_spec; [exact (conj D1 D2)|cbn; destruct (d_op d); cbn; lia| |exact C2]. intros O. apply C1. exact O. }
  destruct X as [x X]. exists (concat (x :: bs)), (x :: bs). split; [constructor; [exact X|exact W]|reflexivity].
Qed.
Lemma df_written d key : wf_of (dataframe_df d, key) = mkWF (d_fin d) (opcode_u8 (d_op d)) key (d_data d).
Proof. unfold wf_of. cbn [fst snd dataframe_df df_last df_opcode df_chunks concat]. rewrite app_nil_r. reflexivity. Qed.
(** The same frames but for their keys. *)
Definition same_but (f g : wframe) : Prop := wf_fin f = wf_fin g /\ wf_op f = wf_op g /\ wf_data f = wf_data g.
Lemma same_talk st fs ms : rfc_talk st fs ms -> forall gs, Forall2 same_but fs gs -> rfc_talk st gs ms.
Proof.
  induction 1; intros gs G; inversion G as [|? [gf go gk gd] ? gs' G1 G2]; subst; try constructor; destruct G1 as (E1 & E2 & E3); cbn in E1, E2, E3; subst.
  - apply rt_control; auto.
  - apply rt_whole; auto.
  - apply rt_first; auto.
  - apply rt_middle; auto.
  - apply rt_last; auto.
Qed.
Lemma same_sym fs gs : Forall2 same_but fs gs -> Forall2 same_but gs fs.
Proof. induction 1 as [|f g fs gs (A & B & C)]; constructor; auto. repeat split; auto. Qed.
Lemma same_lengths fs gs : Forall2 same_but fs gs -> lengths_ok fs -> lengths_ok gs.
Proof. unfold lengths_ok. induction 1 as [|f g fs gs (A & B & C) _ IH]; intros X; [constructor|]. apply Forall_cons_iff in X as [H1 H2]. rewrite C in H1. auto. Qed.
Lemma shows_same fs ds : Forall2 shows fs ds -> forall keys, length keys = length ds ->
  Forall2 same_but fs (map wf_of (map (fun dk => (dataframe_df (fst dk), snd dk)) (combine ds keys))).
Proof.
  induction 1 as [|f d fs ds H _ IH]; intros [|k keys] E; try discriminate E; [constructor|]. injection E as E. cbn [combine map fst snd]. constructor; [|apply IH, E].
  rewrite df_written. destruct H as (_ & A & B & C & _). repeat split; assumption.
Qed.
Lemma own_masks role ds : forall keys, length keys = length ds ->
  (masks_ok role (map wf_of (map (fun dk => (dataframe_df (fst dk), snd dk)) (combine ds keys))) <-> own_keys role keys).
Proof.
  unfold masks_ok, own_keys. induction ds as [|d ds IH]; intros [|k keys] E; try discriminate E; [split; constructor|]. injection E as E. cbn [combine map fst snd]. rewrite !Forall_cons_iff, IH by exact E. reflexivity.
Qed.
Lemma frames_on k l ds r role keys : bytes_ok l -> read_frames k l = Ok (ds, r) -> length keys = k -> Forall key_ok keys ->
  exists b, frames_written_on ds keys b /\
    forall ms, may_say role b ms <-> own_keys role keys /\
      exists fs, l = wframes_octets fs ++ r /\ length fs = k /\ frames_range fs /\ lengths_ok fs /\ rfc_talk None fs ms /\ Forall code_ok ms /\ close_last ms.
Proof.
  intros B R E K. destruct (frames_read _ _ _ _ B R) as [LD C]. destruct (frames_write ds keys C) as [b W]. exists b. split; [exact W|]. intros ms.
  assert (LK : length keys = length ds) by congruence.
  assert (T : Forall talk_typed (map (fun dk => (dataframe_df (fst dk), snd dk)) (combine ds keys))).
  { rewrite Forall_map. apply Forall_forall. intros [d key] I. rewrite Forall_forall in C, K. destruct (dataframe_df_ok d) as [D1 D2]. unfold talk_typed. cbn [fst snd]. rewrite <- D1. split; [exact D2|].
    split; [rewrite D2; apply C; eapply in_combine_l, I|apply K; eapply in_combine_r, I]. }
  unfold may_say. rewrite (say_iff role _ b ms T W). split.
  - intros [NR (FR & MK & LO & TK & CO & CL)]. split; [apply (own_masks role ds keys LK), MK|].
    assert (Z : Forall (fun d => d_rsv d = (false, false, false)) ds).
    { rewrite <- (combine_fst ds keys LK). rewrite Forall_map in NR |- *. exact NR. }
    destruct (frames_shown _ _ _ _ B R Z) as (fs & L1 & L2 & S). exists fs. split; [exact L2|]. split; [exact L1|]. pose proof (same_sym _ _ (shows_same _ _ S _ LK)) as SM.
    split; [|split; [eapply same_lengths; eassumption|split; [eapply same_talk; eassumption|split; assumption]]].
    clear - S. induction S as [|f d fs ds H _ IH]; constructor; [|exact IH]. destruct H as (_ & _ & _ & _ & _ & K & L). auto.
  - intros (OK & fs & -> & L & FR & LO & TK & CO & CL). pose proof (rfc_shown _ _ _ TK FR) as S. pose proof (shows_frames _ _ S r) as R2. rewrite L in R2. rewrite R in R2. injection R2 as ->.
    pose proof (shows_same _ _ S _ LK) as SM. split.
    + rewrite Forall_map. apply Forall_forall. intros [d key] I. apply in_combine_l in I. apply in_map_iff in I as (f & <- & _). reflexivity.
    + split; [|split; [apply (own_masks role _ keys LK), OK|split; [eapply same_lengths; eassumption|split; [eapply same_talk; eassumption|split; assumption]]]].
      unfold frames_range. rewrite Forall_map. eapply Forall_impl; [|exact T]. intros [d key] (T1 & T2 & T3). unfold wf_of. cbn [wf_key wf_data fst snd] in *. rewrite <- T1. auto.
Qed.
