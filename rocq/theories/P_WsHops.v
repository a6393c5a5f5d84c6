(** Proofs for C131. *)
From Coq Require Import Ascii String NArith ZArith Lia Bool List ZifyBool ZifyNat ZifyN.
From Verif Require Import Base P_Base S_Utf8 P_Huffman P_WriteAll S_WriteAll M_Ws S_Ws S_WsApi P_Ws S_WsTalk P_WsTalk S_Rfc6455 P_Rfc6455 S_RfcTalk P_RfcTalk S_RfcCarry P_RfcCarry S_WsHops.
Import ListNotations.
Local Open Scope N_scope.

(** ** Octets *)
Lemma keys_len h n : length (keys_for h n) = n.
Proof. unfold keys_for. rewrite map_length, seq_length. reflexivity. Qed.
Lemma keys_fine h n : hop_keys h -> Forall key_ok (keys_for h n).
Proof. intros K. apply Forall_forall. intros x X. apply in_map_iff in X as (i & <- & _). apply K. Qed.
Lemma header_bytes fin r1 r2 r3 op key n : op < 16 -> n < 2 ^ 64 -> key_ok key -> bytes_ok (spec_header fin r1 r2 r3 op key n).
Proof.
  intros O L K. unfold spec_header. apply bytes_ok_app. split; [|apply bytes_ok_app; split].
  - repeat apply Forall_cons; try constructor; unfold byte_ok, bit, spec_len7.
    + destruct fin, r1, r2, r3; lia.
    + destruct key; destruct (n <? 126) eqn:E; [lia|destruct (n <? 65536); lia|lia|destruct (n <? 65536); lia].
  - unfold spec_ext. destruct (n <? 126); [constructor|]. destruct (n <? 65536) eqn:E.
    + repeat apply Forall_cons; try constructor; unfold byte_ok; [apply N.div_lt_upper_bound; lia|apply N.mod_lt; lia].
    + repeat apply Forall_cons; try constructor; unfold byte_ok; try (apply N.mod_lt; lia). apply N.div_lt_upper_bound; [lia|]. exact L.
  - destruct key as [[[[a b] c] d]|]; [|constructor]. destruct K as (A & B & C & D). repeat apply Forall_cons; try constructor; assumption.
Qed.
Lemma spec_bytes fin r1 r2 r3 op key p : op < 16 -> blen p < 2 ^ 64 -> key_ok key -> bytes_ok p -> bytes_ok (spec_frame fin r1 r2 r3 op key p).
Proof.
  intros O L K B. unfold spec_frame. apply bytes_ok_app. split; [apply header_bytes; assumption|]. destruct key as [[[[a b] c] d]|]; [|exact B].
  destruct K as (A & K2 & C & D). apply mask_bytes; assumption.
Qed.
Lemma octets_bytes fs : frames_range fs -> Forall (fun f => wf_op f < 16) fs -> Forall (fun f => bytes_ok (wf_data f)) fs -> bytes_ok (wframes_octets fs).
Proof.
  unfold frames_range, wframes_octets. induction 1 as [|f fs [K L] _ IH]; intros O B; [constructor|]. apply Forall_cons_iff in O as [O1 O2]. apply Forall_cons_iff in B as [B1 B2].
  cbn [map concat]. apply bytes_ok_app. split; [apply spec_bytes; assumption|apply IH; assumption].
Qed.
Lemma octets_one fs : forall fs', frames_range fs -> frames_range fs' -> Forall (fun f => wf_op f < 16) fs -> Forall (fun f => wf_op f < 16) fs' -> wframes_octets fs = wframes_octets fs' -> fs = fs'.
Proof.
  induction fs as [|f fs IH]; intros fs' R R' O O' E; destruct fs' as [|f' fs']; try reflexivity; unfold wframes_octets in E; cbn [map concat] in E.
  - exfalso. symmetry in E. revert E. apply spec_nonempty.
  - exfalso. revert E. apply spec_nonempty.
  - destruct (Forall_inv R) as [K L]. destruct (Forall_inv R') as [K' L'].
    destruct (spec_cut _ _ _ _ _ _ _ _ _ _ _ _ _ _ _ _ (Forall_inv O) (Forall_inv O') L L' E) as (E1 & _ & _ & _ & E2 & E3 & E4 & E5).
    f_equal; [destruct f, f'; cbn in *; congruence|]. exact (IH fs' (Forall_inv_tail R) (Forall_inv_tail R') (Forall_inv_tail O) (Forall_inv_tail O') E5).
Qed.

(** ** What is told *)
Definition told_by (l : bytes) (fs : list wframe) (ms : list owned) : Prop :=
  l = wframes_octets fs /\ frames_range fs /\ rfc_talk None fs ms /\ Forall (fun f => bytes_ok (wf_data f)) fs.
Lemma told_bytes l fs ms : told_by l fs ms -> bytes_ok l.
Proof. intros (-> & R & T & B). apply octets_bytes; [exact R|exact (talk_ops _ _ _ T)|exact B]. Qed.
Lemma told_iff l ms : bytes_ok l -> (tells l ms <-> exists fs, told_by l fs ms).
Proof.
  intros B. split.
  - intros [k R]. apply (accepted_iff k l ms [] B) in R as (fs & _ & E & FR & T). rewrite app_nil_r in E. exists fs. split; [exact E|]. split; [exact FR|]. split; [exact T|].
    apply frames_bytes; [exact FR|]. rewrite <- E. exact B.
  - intros (fs & E & FR & T & _). exists (length fs). pose proof (said_received fs ms [] FR T) as R. rewrite app_nil_r in R. rewrite E. exact R.
Qed.
Lemma told_one l fs ms fs' ms' : told_by l fs ms -> told_by l fs' ms' -> fs = fs' /\ ms = ms'.
Proof.
  intros (E & R & T & _) (E' & R' & T' & _). assert (X : fs = fs').
  { apply octets_one; try assumption; [exact (talk_ops _ _ _ T)|exact (talk_ops _ _ _ T')|congruence]. }
  subst fs'. split; [reflexivity|]. exact (talk_one _ _ _ T _ T').
Qed.
Lemma tells_one l fs ms ms' : told_by l fs ms -> (tells l ms' <-> ms' = ms).
Proof.
  intros T. rewrite (told_iff l ms' (told_bytes _ _ _ T)). split.
  - intros [fs' T']. symmetry. apply (told_one _ _ _ _ _ T T').
  - intros ->. eauto.
Qed.
Lemma talk_bytes st fs ms : rfc_talk st fs ms -> Forall (fun f => bytes_ok (wf_data f)) fs -> match st with Some (o, acc) => bytes_ok acc | None => True end -> Forall (fun m => bytes_ok (owned_data m)) ms.
Proof.
  induction 1 as [|st op k p m fs ms O L M T IH|op k p m fs ms O M T IH|op k p fs ms O T IH|op acc k p fs ms T IH|op acc k p m fs ms M T IH]; intros B S.
  - constructor.
  - apply Forall_cons_iff in B as [B1 B2]. cbn [wf_data] in B1. constructor; [|apply IH; assumption]. destruct (meant_typed _ _ _ B1 M) as [_ ->]. exact B1.
  - apply Forall_cons_iff in B as [B1 B2]. cbn [wf_data] in B1. constructor; [|apply IH; [exact B2|exact Logic.I]]. destruct (meant_typed _ _ _ B1 M) as [_ ->]. exact B1.
  - apply Forall_cons_iff in B as [B1 B2]. apply IH; [exact B2|]. exact B1.
  - apply Forall_cons_iff in B as [B1 B2]. apply IH; [exact B2|]. apply bytes_ok_app. auto.
  - apply Forall_cons_iff in B as [B1 B2]. cbn [wf_data] in B1. assert (X : bytes_ok (acc ++ p)) by (apply bytes_ok_app; auto).
    constructor; [|apply IH; [exact B2|exact Logic.I]]. destruct (meant_typed _ _ _ X M) as [_ ->]. exact X.
Qed.

(** ** One intermediary *)
Definition fits (ms : list owned) : Prop := Forall (fun m => blen (owned_data m) < 2 ^ 64) ms.
Lemma by_messages l fs ms keys : told_by l fs ms -> fits ms -> length keys = length ms -> Forall key_ok keys ->
  (exists b, messages_written ms keys b) /\
  forall b, messages_written ms keys b -> told_by b (map wf_of (map (fun mk => (owned_df (fst mk), snd mk)) (combine ms keys))) ms.
Proof.
  intros (_ & FR & TK & B) F E K. assert (C : Forall carried ms) by (apply (talk_carried None fs ms TK B Logic.I)).
  split; [exact (owned_write_all ms keys C F)|]. intros b W.
  assert (OT : Forall owned_typed (map fst (combine ms keys))).
  { rewrite combine_fst by exact E. eapply Forall_impl; [|exact C]. intros m M. apply M. }
  assert (T : Forall talk_typed (map (fun mk => (owned_df (fst mk), snd mk)) (combine ms keys))).
  { rewrite Forall_map. rewrite Forall_map in OT. unfold fits in F. rewrite Forall_forall in OT, F, K |- *. intros [m k] H. specialize (OT _ H). destruct (owned_df_ok m) as [D1 D2].
    unfold talk_typed. cbn [fst snd] in *. rewrite D2, D1, owned_chunks by exact OT. split; [reflexivity|]. split; [apply F; eapply in_combine_l, H|apply K; eapply in_combine_r, H]. }
  pose proof (owned_talk _ b OT T W) as TK'. rewrite combine_fst in TK' by exact E. pose proof (range_of _ T) as FR'.
  split; [|split; [exact FR'|split; [exact TK'|]]].
  - apply (written_cut _ T b W _ FR' (talk_ops _ _ _ TK')). split; [|reflexivity]. rewrite Forall_map. apply Forall_forall. intros mk _. reflexivity.
  - pose proof (talk_bytes None fs ms TK B Logic.I) as BD. rewrite !Forall_map. rewrite Forall_map in OT. rewrite Forall_forall in OT, BD |- *. intros [m k] H. specialize (OT _ H).
    unfold wf_of. cbn [fst snd wf_data] in *. rewrite owned_chunks by exact OT. apply BD. eapply in_combine_l, H.
Qed.
Lemma read_frames_one k : forall k' l ds ds', read_frames k l = Ok (ds, []) -> read_frames k' l = Ok (ds', []) -> ds = ds'.
Proof.
  induction k as [|k IH]; intros [|k'] l ds ds' A B; cbn [read_frames] in A, B.
  - congruence.
  - injection A as <- ->. discriminate B.
  - injection B as <- ->. discriminate A.
  - apply bind_ok in A as ([d l1] & R & A). apply bind_ok in A as ([ds1 l2] & W & A). injection A as <- ->. rewrite R in B. cbn [bind] in B.
    apply bind_ok in B as ([ds2 l3] & W' & B). injection B as <- ->. f_equal. exact (IH _ _ _ _ W W').
Qed.
Lemma by_frames l fs ms keys : told_by l fs ms -> length keys = length fs -> Forall key_ok keys ->
  frames_told l (map shown fs) /\ (exists b, frames_written_on (map shown fs) keys b) /\
  forall b, frames_written_on (map shown fs) keys b -> exists fs', told_by b fs' ms /\ Forall2 same_but fs fs' /\ map wf_key fs' = keys.
Proof.
  intros TB E K. pose proof (told_bytes _ _ _ TB) as BL. destruct TB as (-> & FR & TK & B). pose proof (rfc_shown _ _ _ TK FR) as S.
  pose proof (shows_frames _ _ S []) as R. rewrite app_nil_r in R. split; [exists (length fs); exact R|].
  destruct (frames_read _ _ _ _ BL R) as [LD C]. split; [exact (frames_write _ keys C)|]. intros b W.
  assert (LK : length keys = length (map shown fs)) by congruence.
  pose proof (shows_same _ _ S _ LK) as SM. pose proof (same_talk _ _ _ TK _ SM) as TK'.
  assert (T : Forall talk_typed (map (fun dk => (dataframe_df (fst dk), snd dk)) (combine (map shown fs) keys))).
  { rewrite Forall_map. apply Forall_forall. intros [d key] I. rewrite Forall_forall in C, K. destruct (dataframe_df_ok d) as [D1 D2]. unfold talk_typed. cbn [fst snd]. rewrite <- D1. split; [exact D2|].
    split; [rewrite D2; apply C; eapply in_combine_l, I|apply K; eapply in_combine_r, I]. }
  pose proof (range_of _ T) as FR'. eexists. split; [|split; [exact SM|]].
  - split; [|split; [exact FR'|split; [exact TK'|]]].
    + apply (written_cut _ T b W _ FR' (talk_ops _ _ _ TK')). split; [|reflexivity]. rewrite Forall_map. apply Forall_forall. intros [d key] I. apply in_combine_l in I. apply in_map_iff in I as (f & <- & _). reflexivity.
    + clear - B SM. revert B. induction SM as [|f g fs gs (_ & _ & X) _ IH]; intros B; constructor; apply Forall_cons_iff in B as [B1 B2]; [rewrite <- X; exact B1|apply IH, B2].
  - rewrite !map_map. rewrite (map_ext _ snd) by (intros [d k]; reflexivity). apply combine_snd, LK.
Qed.
Lemma sent_told h l fs ms : told_by l fs ms -> fits ms -> hop_keys h ->
  (exists b, sent_on h l b) /\ forall b, sent_on h l b -> exists fs', told_by b fs' ms.
Proof.
  intros T F K. unfold sent_on. destruct (fst h).
  - destruct (by_messages l fs ms (keys_for h (length ms)) T F (keys_len _ _) (keys_fine _ _ K)) as [[b W] D]. split.
    + exists b, ms. split; [apply (tells_one _ _ _ _ T); reflexivity|exact W].
    + intros b' (ms' & M & W'). apply (tells_one _ _ _ _ T) in M as ->. eexists. exact (D b' W').
  - destruct (by_frames l fs ms (keys_for h (length (map shown fs))) T) as ([k R] & [b W] & D); [rewrite keys_len, map_length; reflexivity|exact (keys_fine _ _ K)|]. split.
    + exists b, (map shown fs). split; [exists k; exact R|exact W].
    + intros b' (ds & [k' R'] & W'). pose proof (read_frames_one _ _ _ _ _ R R') as <-. destruct (D b' W') as (fs' & X & _). eauto.
Qed.
Lemma over_told hs : forall l fs ms, told_by l fs ms -> fits ms -> Forall hop_keys hs ->
  (exists b, sent_over hs l b) /\ forall b, sent_over hs l b -> exists fs', told_by b fs' ms.
Proof.
  induction hs as [|h hs IH]; intros l fs ms T F K.
  - split; [exists l; constructor|]. intros b H. inversion H; subst. eauto.
  - apply Forall_cons_iff in K as [K1 K2]. destruct (sent_told h l fs ms T F K1) as [[m M] D]. split.
    + destruct (D m M) as [fs1 T1]. destruct (IH m fs1 ms T1 F K2) as [[b B] _]. exists b. econstructor; eassumption.
    + intros b H. inversion H as [|? ? ? m' ? M' B']; subst. destruct (D m' M') as [fs1 T1]. exact (proj2 (IH m' fs1 ms T1 F K2) b B').
Qed.
Lemma over_one hs : forall l fs ms, told_by l fs ms -> fits ms -> Forall hop_keys hs -> forall b b', sent_over hs l b -> sent_over hs l b' -> b = b'.
Proof.
  induction hs as [|h hs IH]; intros l fs ms T F K b b' H H'; inversion H as [|? ? ? m ? M B]; inversion H' as [|? ? ? m' ? M' B']; subst; [reflexivity|].
  apply Forall_cons_iff in K as [K1 K2]. assert (X : m = m').
  { assert (W1 : forall ds b b', written_all ds b -> written_all ds b' -> b = b').
    { clear. intros ds b b' (x & X & ->) (y & Y & ->). f_equal. revert y Y. induction X as [|d x0 ds x A _ IH]; intros y Y; inversion Y as [|? y0 ? y' A' Y']; subst; [reflexivity|]. f_equal; [congruence|auto]. }
    unfold sent_on in M, M'. destruct (fst h).
    - destruct M as (ms1 & R & W), M' as (ms2 & R' & W'). apply (tells_one _ _ _ _ T) in R as ->. apply (tells_one _ _ _ _ T) in R' as ->. exact (W1 _ _ _ W W').
    - destruct M as (ds1 & [k R] & W), M' as (ds2 & [k' R'] & W'). pose proof (read_frames_one _ _ _ _ _ R R') as <-. exact (W1 _ _ _ W W'). }
  subst m'. destruct (proj2 (sent_told h l fs ms T F K1) m M) as [fs1 T1]. exact (IH m fs1 ms T1 F K2 b b' B B').
Qed.
Lemma relayed hs l ms : bytes_ok l -> tells l ms -> fits ms -> Forall hop_keys hs ->
  exists b, sent_over hs l b /\ (forall b', sent_over hs l b' -> b' = b) /\ bytes_ok b /\ forall ms', tells b ms' <-> ms' = ms.
Proof.
  intros B T F K. apply (told_iff l ms B) in T as [fs T]. destruct (over_told hs l fs ms T F K) as [[b S] D]. exists b. split; [exact S|].
  split; [intros b' S'; exact (over_one hs l fs ms T F K b' b S' S)|]. destruct (D b S) as [fs' T']. split; [exact (told_bytes _ _ _ T')|]. intros ms'. exact (tells_one _ _ _ _ T').
Qed.
(** ** The last intermediary *)
Lemma sent_keys h l fs ms : told_by l fs ms -> fits ms -> hop_keys h -> forall b, sent_on h l b -> exists fs', told_by b fs' ms /\ map wf_key fs' = keys_for h (length fs').
Proof.
  intros T F K b S. unfold sent_on in S. destruct (fst h).
  - destruct S as (ms' & M & W). apply (tells_one _ _ _ _ T) in M as ->.
    destruct (by_messages l fs ms (keys_for h (length ms)) T F (keys_len _ _) (keys_fine _ _ K)) as [_ D]. eexists. split; [exact (D b W)|].
    rewrite !map_length, combine_length, keys_len, Nat.min_id, !map_map. rewrite (map_ext _ snd) by (intros [d k]; reflexivity). apply combine_snd, keys_len.
  - destruct S as (ds & [k' R'] & W).
    destruct (by_frames l fs ms (keys_for h (length (map shown fs))) T) as ([k R] & _ & D); [rewrite keys_len, map_length; reflexivity|exact (keys_fine _ _ K)|].
    pose proof (read_frames_one _ _ _ _ _ R R') as <-. destruct (D b W) as (fs' & X & Y & Z). exists fs'. split; [exact X|]. rewrite Z. f_equal. rewrite map_length. clear - Y.
    induction Y; cbn [length]; congruence.
Qed.
Lemma talk_lengths st fs ms : rfc_talk st fs ms -> Forall (fun f => bytes_ok (wf_data f)) fs -> match st with Some (o, acc) => bytes_ok acc | None => True end ->
  Forall (fun m => blen (owned_data m) < 2 ^ 63) ms -> lengths_ok fs /\ match st with Some (o, acc) => blen acc < 2 ^ 63 | None => True end.
Proof.
  unfold lengths_ok. induction 1 as [|st op k p m fs ms O L M T IH|op k p m fs ms O M T IH|op k p fs ms O T IH|op acc k p fs ms T IH|op acc k p m fs ms M T IH]; intros B S F.
  - split; [constructor|exact Logic.I].
  - apply Forall_cons_iff in B as [B1 B2]. apply Forall_cons_iff in F as [F1 F2]. cbn [wf_data] in B1. destruct (IH B2 S F2) as [X Y]. split; [|exact Y]. constructor; [cbn [wf_data]; lia|exact X].
  - apply Forall_cons_iff in B as [B1 B2]. apply Forall_cons_iff in F as [F1 F2]. cbn [wf_data] in B1. destruct (IH B2 Logic.I F2) as [X _]. split; [|exact Logic.I].
    destruct (meant_typed _ _ _ B1 M) as [_ E]. rewrite E in F1. constructor; [exact F1|exact X].
  - apply Forall_cons_iff in B as [B1 B2]. cbn [wf_data] in B1. destruct (IH B2 B1 F) as [X Y]. split; [|exact Logic.I]. constructor; [exact Y|exact X].
  - apply Forall_cons_iff in B as [B1 B2]. cbn [wf_data] in B1. destruct (IH B2 (proj2 (bytes_ok_app _ _) (conj S B1)) F) as [X Y]. rewrite blen_app in Y. split; [constructor; [cbn [wf_data]; lia|exact X]|lia].
  - apply Forall_cons_iff in B as [B1 B2]. apply Forall_cons_iff in F as [F1 F2]. cbn [wf_data] in B1. destruct (IH B2 Logic.I F2) as [X _].
    destruct (meant_typed op (acc ++ p) m (proj2 (bytes_ok_app _ _) (conj S B1)) M) as [_ E]. rewrite E, blen_app in F1. split; [constructor; [cbn [wf_data]; lia|exact X]|lia].
Qed.
Lemma over_app hs : forall h l b, sent_over (hs ++ [h]) l b <-> exists m, sent_over hs l m /\ sent_on h m b.
Proof.
  induction hs as [|x hs IH]; intros h l b; cbn [app].
  - split.
    + intros H. inversion H as [|? ? ? m ? A B]; subst. inversion B; subst. exists l. split; [constructor|exact A].
    + intros (m & A & B). inversion A; subst. econstructor; [exact B|constructor].
  - split.
    + intros H. inversion H as [|? ? ? m ? A B]; subst. apply IH in B as (m' & B & C). exists m'. split; [econstructor; eassumption|exact C].
    + intros (m & A & B). inversion A as [|? ? ? m' ? A1 A2]; subst. econstructor; [exact A1|]. apply IH. eauto.
Qed.
Lemma relayed_said hs h l ms role : bytes_ok l -> tells l ms -> Forall (fun m => blen (owned_data m) < 2 ^ 63) ms -> Forall hop_keys (hs ++ [h]) ->
  (forall i, own_keys role [snd h i]) -> Forall code_ok ms -> close_last ms -> forall b, sent_over (hs ++ [h]) l b -> may_say role b ms.
Proof.
  intros B T F K O CO CL b S. apply (told_iff l ms B) in T as [fs T]. apply Forall_app in K as [K1 K2].
  assert (F64 : fits ms) by (eapply Forall_impl; [|exact F]; cbn; intros; lia).
  apply over_app in S as (m & S1 & S2). destruct (proj2 (over_told hs l fs ms T F64 K1) m S1) as [fs1 T1].
  destruct (sent_keys h m fs1 ms T1 F64 (Forall_inv K2) b S2) as (fs2 & (E & FR & TK & BD) & KE). exists fs2. split; [exact E|].
  split; [exact FR|]. split; [|split; [exact (proj1 (talk_lengths _ _ _ TK BD Logic.I F))|split; [exact TK|split; assumption]]].
  assert (X : Forall (fun k => own_keys role [k]) (map wf_key fs2)).
  { rewrite KE. apply Forall_forall. intros x X. apply in_map_iff in X as (i & <- & _). apply O. }
  unfold masks_ok. rewrite Forall_map in X. eapply Forall_impl; [|exact X]. intros f Y. exact (Forall_inv Y).
Qed.

(** ** Frames only *)
Lemma frames_back ds : forall keys, Forall frame_ok ds -> length keys = length ds ->
  exists b, frames_written_on ds keys b /\ (forall b', frames_written_on ds keys b' -> b' = b) /\ read_frames (length ds) b = Ok (ds, []).
Proof.
  unfold frames_written_on, written_all. induction ds as [|d ds IH]; intros [|k keys] F E; try discriminate E.
  - exists []. split; [exists []; split; [constructor|reflexivity]|]. split; [intros b' (bs & W & ->); inversion W; reflexivity|reflexivity].
  - injection E as E. apply Forall_cons_iff in F as [F1 F2]. destruct (IH keys F2 E) as (b & (bs & W & ->) & U & R).
    destruct (dataframe_roundtrip d k (concat bs) F1) as (w & W1 & _ & R1 & _). exists (w ++ concat bs). split; [exists (w :: bs); split; [constructor; assumption|reflexivity]|]. split.
    + intros b' (bs' & W' & ->). inversion W' as [|? x ? bs2 A1 A2]; subst. cbn [fst snd] in A1. rewrite W1 in A1. injection A1 as <-. cbn [concat]. f_equal. apply U. eauto.
    + cbn [length read_frames]. rewrite R1. cbn [bind]. rewrite R. reflexivity.
Qed.
Lemma over_frames hs : forall l ds, frames_told l ds -> Forall frame_ok ds -> Forall (fun h => fst h = ByFrames) hs ->
  exists b, sent_over hs l b /\ (forall b', sent_over hs l b' -> b' = b) /\ forall ds', frames_told b ds' <-> ds' = ds.
Proof.
  induction hs as [|h hs IH]; intros l ds [k R] F K.
  - exists l. split; [constructor|]. split; [intros b' H; inversion H; reflexivity|]. intros ds'. split; [intros [k' R']; exact (read_frames_one _ _ _ _ _ R' R)|intros ->; exists k; exact R].
  - apply Forall_cons_iff in K as [K1 K2]. destruct (frames_back ds (keys_for h (length ds)) F (keys_len _ _)) as (m & W & U & R1).
    destruct (IH m ds (ex_intro _ _ R1) F K2) as (b & S & U2 & D). exists b. split; [|split; [|exact D]].
    + econstructor; [|exact S]. unfold sent_on. rewrite K1. exists ds. split; [exists k; exact R|exact W].
    + intros b' H. inversion H as [|? ? ? m' ? A B]; subst. unfold sent_on in A. rewrite K1 in A. destruct A as (ds2 & [k' R'] & W').
      pose proof (read_frames_one _ _ _ _ _ R R') as <-. apply U in W' as ->. apply U2, B.
Qed.
Lemma relayed_frames hs l ds : bytes_ok l -> frames_told l ds -> Forall (fun h => fst h = ByFrames) hs ->
  exists b, sent_over hs l b /\ (forall b', sent_over hs l b' -> b' = b) /\ forall ds', frames_told b ds' <-> ds' = ds.
Proof.
  intros B [k R]. apply over_frames; [exists k; exact R|]. exact (proj2 (frames_read _ _ _ _ B R)).
Qed.
