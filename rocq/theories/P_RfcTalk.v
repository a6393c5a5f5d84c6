(** Proofs for C119. *)
From Coq Require Import Ascii String NArith ZArith Lia Bool List ZifyBool ZifyNat ZifyN.
From Verif Require Import Base P_Base S_Utf8 P_Huffman P_WriteAll S_WriteAll M_Ws S_Ws S_WsApi P_Ws S_Rfc6455 P_Rfc6455 S_RfcTalk.
Import ListNotations.
Local Open Scope N_scope.

(** ** The octets of a frame tell where it ends, and everything else *)
Lemma first_octet fin r1 r2 r3 op fin' r1' r2' r3' op' : op < 16 -> op' < 16 ->
  bit fin 128 + bit r1 64 + bit r2 32 + bit r3 16 + op = bit fin' 128 + bit r1' 64 + bit r2' 32 + bit r3' 16 + op' ->
  fin = fin' /\ r1 = r1' /\ r2 = r2' /\ r3 = r3' /\ op = op'.
Proof.
  unfold bit. intros L L' E.
  assert (fin = fin') by (destruct fin, fin', r1, r1', r2, r2', r3, r3'; try reflexivity; exfalso; lia). subst fin'.
  assert (r1 = r1') by (destruct r1, r1', r2, r2', r3, r3'; try reflexivity; exfalso; lia). subst r1'.
  assert (r2 = r2') by (destruct r2, r2', r3, r3'; try reflexivity; exfalso; lia). subst r2'.
  assert (r3 = r3') by (destruct r3, r3'; try reflexivity; exfalso; lia). subst r3'.
  repeat split; lia.
Qed.
Lemma header_cut fin r1 r2 r3 op key n x fin' r1' r2' r3' op' key' n' x' : op < 16 -> op' < 16 -> n < 2 ^ 64 -> n' < 2 ^ 64 ->
  spec_header fin r1 r2 r3 op key n ++ x = spec_header fin' r1' r2' r3' op' key' n' ++ x' ->
  fin = fin' /\ r1 = r1' /\ r2 = r2' /\ r3 = r3' /\ op = op' /\ key = key' /\ n = n' /\ x = x'.
Proof.
  intros O O' L L' E. unfold spec_header in E. rewrite <- !app_assoc in E. cbn [app] in E. injection E as E1 E2 E3.
  destruct (first_octet _ _ _ _ _ _ _ _ _ _ O O' E1) as (-> & -> & -> & -> & ->).
  set (m := match key with Some _ => 128 | None => 0 end) in *. set (m' := match key' with Some _ => 128 | None => 0 end) in *.
  assert (M : m = 0 \/ m = 128) by (unfold m; destruct key; auto). assert (M' : m' = 0 \/ m' = 128) by (unfold m'; destruct key'; auto).
  match type of E3 with spec_ext n ++ ?a = spec_ext n' ++ ?b => destruct (read_len_spec m n a M L) as [R1 R2]; destruct (read_len_spec m' n' b M' L') as [R1' R2'] end.
  rewrite E2, E3, R1' in R1. injection R1 as -> E4. rewrite E2, R2' in R2.
  repeat match goal with |- _ /\ _ => split end; try reflexivity.
  - unfold m, m' in *. destruct key as [[[[a b] c] d]|], key' as [[[[a' b'] c'] d']|]; try discriminate R2; [|reflexivity].
    cbn [app] in E4. congruence.
  - unfold m, m' in *. destruct key as [[[[a b] c] d]|], key' as [[[[a' b'] c'] d']|]; try discriminate R2; cbn [app] in E4; congruence.
Qed.
Lemma keyed_blen key p : blen (keyed key p) = blen p.
Proof. destruct key as [[[[a b] c] d]|]; [apply spec_mask_length|reflexivity]. Qed.
Lemma keyed_inj key p q : keyed key p = keyed key q -> p = q.
Proof.
  destruct key as [[[[a b] c] d]|]; [|auto]. cbn [keyed]. rewrite <- !mask_data_spec. intros E. apply (f_equal (mask_data (a, b, c, d))) in E.
  rewrite !mask_data_invol in E. exact E.
Qed.
Lemma spec_cut fin r1 r2 r3 op key p x fin' r1' r2' r3' op' key' p' x' : op < 16 -> op' < 16 -> blen p < 2 ^ 64 -> blen p' < 2 ^ 64 ->
  spec_frame fin r1 r2 r3 op key p ++ x = spec_frame fin' r1' r2' r3' op' key' p' ++ x' ->
  fin = fin' /\ r1 = r1' /\ r2 = r2' /\ r3 = r3' /\ op = op' /\ key = key' /\ p = p' /\ x = x'.
Proof.
  intros O O' L L' E. unfold spec_frame in E. fold (keyed key p) in E. fold (keyed key' p') in E. rewrite <- !app_assoc in E.
  destruct (header_cut _ _ _ _ _ _ _ _ _ _ _ _ _ _ _ _ O O' L L' E) as (-> & -> & -> & -> & -> & -> & B & E2).
  destruct (app_inj_length (keyed key' p) (keyed key' p') x x') as [E3 ->]; [pose proof (keyed_blen key' p); pose proof (keyed_blen key' p'); unfold blen in *; lia|exact E2|].
  apply keyed_inj in E3. auto 10.
Qed.
Lemma talk_ops st fs ms : rfc_talk st fs ms -> Forall (fun f => wf_op f < 16) fs.
Proof. induction 1; constructor; auto; cbn; lia. Qed.

(** ** Any objects *)
Lemma written_frame d key b : df_size d = blen (concat (df_chunks d)) -> df_size d < 2 ^ 64 -> write_to d key = Ok b ->
  df_opcode d < 16 /\ (8 <= df_opcode d -> df_size d <= 125) /\ exists r1 r2 r3, df_rsv d = (r1, r2, r3) /\ b = spec_frame (df_last d) r1 r2 r3 (df_opcode d) key (concat (df_chunks d)).
Proof.
  intros S L W. apply (ws_all d key (Ok b) L) in W. inversion W as [| |r1 r2 r3 O C R E]; subst. split; [lia|]. split; [exact C|].
  exists r1, r2, r3. split; [exact R|]. unfold spec_frame. fold (keyed key (concat (df_chunks d))). rewrite <- S. reflexivity.
Qed.
Lemma spec_nonempty fin r1 r2 r3 op key p x : spec_frame fin r1 r2 r3 op key p ++ x <> [].
Proof. discriminate. Qed.
Lemma written_cut ds : Forall talk_typed ds -> forall b, written_all ds b -> forall fs, frames_range fs -> Forall (fun f => wf_op f < 16) fs ->
  (b = wframes_octets fs <-> Forall (fun d => no_rsv (fst d)) ds /\ fs = map wf_of ds).
Proof.
  induction 1 as [|[d key] ds (S & L & K) _ IH]; intros b (bs & W & ->) fs R O.
  - inversion W; subst. cbn [concat map]. split.
    + intros E. destruct fs as [|f fs]; [split; [constructor|reflexivity]|]. exfalso. symmetry in E. revert E. apply spec_nonempty.
    + intros [_ ->]. reflexivity.
  - inversion W as [|? x ? bs' W1 W2]; subst. cbn [fst snd concat map] in *.
    destruct (written_frame d key x S L W1) as (Od & _ & r1 & r2 & r3 & RS & ->).
    specialize (IH (concat bs') (ex_intro _ bs' (conj W2 eq_refl))).
    split.
    + intros E. destruct fs as [|f fs]; [exfalso; revert E; apply spec_nonempty|].
      unfold wframes_octets in E. cbn [map concat] in E. unfold wframe_octets at 1 in E.
      pose proof (Forall_inv R) as [Kf Lf]. rewrite S in L.
      destruct (spec_cut _ _ _ _ _ _ _ _ _ _ _ _ _ _ _ _ Od (Forall_inv O) L Lf E) as (E1 & -> & -> & -> & E2 & E3 & E4 & E5).
      apply (IH fs (Forall_inv_tail R) (Forall_inv_tail O)) in E5. destruct E5 as [E5 ->].
      split; [constructor; assumption|]. f_equal. destruct f. unfold wf_of. cbn in *. congruence.
    + intros [N ->]. pose proof (Forall_inv N) as N1. cbn [fst] in N1. unfold no_rsv in N1. rewrite RS in N1. injection N1 as -> -> ->.
      unfold wframes_octets. cbn [map concat]. f_equal. apply IH; [exact (Forall_inv_tail R)|exact (Forall_inv_tail O)|]. split; [exact (Forall_inv_tail N)|reflexivity].
Qed.
Lemma range_of ds : Forall talk_typed ds -> frames_range (map wf_of ds).
Proof.
  intros T. unfold frames_range. rewrite Forall_map. eapply Forall_impl; [|exact T]. intros [d k] (S & L & K). cbn in *. split; [exact K|]. rewrite <- S. exact L.
Qed.
Lemma say_iff client ds b ms : Forall talk_typed ds -> written_all ds b ->
  (may_say client b ms <-> Forall (fun d => no_rsv (fst d)) ds /\ rfc_said client (map wf_of ds) ms).
Proof.
  intros T W. split.
  - intros (fs & E & S). pose proof S as (R & _ & _ & TK & _). apply (written_cut ds T b W fs R (talk_ops _ _ _ TK)) in E. destruct E as [N ->]. auto.
  - intros [N S]. exists (map wf_of ds). split; [|exact S]. pose proof S as (R & _ & _ & TK & _). apply (written_cut ds T b W _ R (talk_ops _ _ _ TK)). auto.
Qed.
(** Messages are determined by frames. *)
Lemma meant_one op p m m' : meant op p m -> meant op p m' -> m = m'.
Proof. intros A B. destruct A; inversion B; subst; reflexivity. Qed.
Lemma talk_one st fs ms : rfc_talk st fs ms -> forall ms', rfc_talk st fs ms' -> ms = ms'.
Proof.
  induction 1 as [|st op k p m fs ms O L M T IH|op k p m fs ms O M T IH|op k p fs ms O T IH|op acc k p fs ms T IH|op acc k p m fs ms M T IH]; intros ms' H; inversion H; subst;
    try lia; try reflexivity; try (f_equal; [eapply meant_one; eassumption|apply IH; assumption]); try (apply IH; assumption); try discriminate.
Qed.
Lemma say_one client b ms ms' : may_say client b ms -> may_say client b ms' -> ms = ms'.
Proof.
  intros (fs & -> & R & _ & _ & T & _) (fs' & E & R' & _ & _ & T' & _).
  assert (X : fs = fs'); [|subst; exact (talk_one _ _ _ T _ T')].
  pose proof (talk_ops _ _ _ T) as O. pose proof (talk_ops _ _ _ T') as O'. clear -R R' O O' E. revert fs' R' O' E.
  induction fs as [|f fs IH]; intros fs' R' O' E; destruct fs' as [|f' fs']; try reflexivity; unfold wframes_octets in E; cbn [map concat] in E.
  - exfalso. symmetry in E. revert E. apply spec_nonempty.
  - exfalso. revert E. apply spec_nonempty.
  - destruct (Forall_inv R) as [K L]. destruct (Forall_inv R') as [K' L'].
    destruct (spec_cut _ _ _ _ _ _ _ _ _ _ _ _ _ _ _ _ (Forall_inv O) (Forall_inv O') L L' E) as (E1 & _ & _ & _ & E2 & E3 & E4 & E5).
    f_equal; [destruct f, f'; cbn in *; congruence|]. exact (IH (Forall_inv_tail R) (Forall_inv_tail O) fs' (Forall_inv_tail R') (Forall_inv_tail O') E5).
Qed.

(** ** Owned messages *)
Lemma owned_chunks m : owned_typed m -> concat (df_chunks (owned_df m)) = owned_data m.
Proof.
  destruct m as [s|s|[c|]|s|s]; cbn [owned_typed owned_df df_chunks concat owned_data]; intros T; rewrite ?app_nil_r; try reflexivity.
  rewrite be_enc_2 by apply T. reflexivity.
Qed.
Lemma owned_meant m : owned_typed m -> meant (df_opcode (owned_df m)) (owned_data m) m.
Proof.
  destruct m as [s|s|[c|]|s|s]; cbn [owned_typed owned_df df_opcode mtype_u8 owned_data]; intros T; try constructor; [exact T|].
  destruct c as [code r]. cbn [cd_code cd_reason] in *. destruct T as [T1 T2]. pose proof (me_because (code / 256) (code mod 256) r T2) as X.
  replace (code / 256 * 256 + code mod 256) with code in X by lia. exact X.
Qed.
Lemma owned_talk mks b : Forall owned_typed (map fst mks) -> Forall talk_typed (map (fun mk => (owned_df (fst mk), snd mk)) mks) ->
  written_all (map (fun mk => (owned_df (fst mk), snd mk)) mks) b -> rfc_talk None (map wf_of (map (fun mk => (owned_df (fst mk), snd mk)) mks)) (map fst mks).
Proof.
  intros OT T (bs & W & _). clear b. revert bs W. induction mks as [|[m k] mks IH]; intros bs W; cbn [map fst snd] in *; [constructor|].
  inversion W as [|? x ? bs' W1 W2]; subst. cbn [fst snd] in *. pose proof (Forall_inv T) as (S & L & K). cbn [fst snd] in *.
  pose proof (Forall_inv OT) as O1. destruct (written_frame (owned_df m) k x S L W1) as (_ & C & _).
  specialize (IH (Forall_inv_tail OT) (Forall_inv_tail T) _ W2).
  unfold wf_of at 1. cbn [fst snd]. rewrite owned_chunks in * by exact O1. pose proof (owned_meant m O1) as M.
  destruct m as [s|s|c|s|s]; cbn [owned_df df_last df_opcode mtype_u8] in *.
  - apply rt_whole; auto.
  - apply rt_whole; auto.
  - apply rt_control; auto. rewrite <- S. apply C. cbn. lia.
  - apply rt_control; auto. rewrite <- S. apply C. cbn. lia.
  - apply rt_control; auto. rewrite <- S. apply C. cbn. lia.
Qed.
Lemma owned_say client mks b ms : Forall owned_typed (map fst mks) -> Forall (fun mk => blen (owned_data (fst mk)) < 2 ^ 64 /\ key_ok (snd mk)) mks ->
  written_all (map (fun mk => (owned_df (fst mk), snd mk)) mks) b ->
  (may_say client b ms <-> ms = map fst mks /\ own_keys client (map snd mks) /\ Forall (fun m => blen (owned_data m) < 2 ^ 63) (map fst mks) /\
     Forall code_ok (map fst mks) /\ close_last (map fst mks)).
Proof.
  intros OT K W.
  assert (T : Forall talk_typed (map (fun mk => (owned_df (fst mk), snd mk)) mks)).
  { rewrite Forall_map. rewrite Forall_map in OT. rewrite Forall_forall in OT, K |- *. intros mk H. specialize (OT mk H). destruct (K mk H) as [K1 K2].
    destruct (owned_df_ok (fst mk)) as [D1 D2]. unfold talk_typed. cbn [fst snd]. rewrite D2, D1, owned_chunks by exact OT. auto. }
  rewrite (say_iff client _ b ms T W). pose proof (owned_talk mks b OT T W) as TK.
  assert (N : Forall (fun d : dfable * option mkey => no_rsv (fst d)) (map (fun mk => (owned_df (fst mk), snd mk)) mks)).
  { rewrite Forall_map. apply Forall_forall. intros mk _. reflexivity. }
  assert (MK : masks_ok client (map wf_of (map (fun mk => (owned_df (fst mk), snd mk)) mks)) <-> own_keys client (map snd mks)).
  { unfold masks_ok, own_keys. rewrite !Forall_map. reflexivity. }
  assert (LN : lengths_ok (map wf_of (map (fun mk => (owned_df (fst mk), snd mk)) mks)) <-> Forall (fun m => blen (owned_data m) < 2 ^ 63) (map fst mks)).
  { unfold lengths_ok. rewrite !Forall_map. rewrite Forall_map in OT. rewrite !Forall_forall. rewrite Forall_forall in OT. split; intros H mk Hm; specialize (H mk Hm); specialize (OT mk Hm);
      cbn [wf_of wf_data fst] in *; rewrite owned_chunks in * by exact OT; exact H. }
  split.
  - intros [_ (R & M & L & TK' & C & Z)]. pose proof (talk_one _ _ _ TK' _ TK) as ->. split; [reflexivity|]. tauto.
  - intros (-> & M & L & C & Z). split; [exact N|]. split; [apply range_of, T|]. tauto.
Qed.

(** ** Messages whose fields are set by hand *)
Lemma message_say client m key b ms : blen (df_take (message_df m)) < 2 ^ 64 -> key_ok key -> write_to (message_df m) key = Ok b ->
  (may_say client b ms <-> exists o, ms = [o] /\ meant (mtype_u8 (m_op m)) (df_take (message_df m)) o /\ own_keys client [key] /\ blen (df_take (message_df m)) < 2 ^ 63 /\ code_ok o).
Proof.
  intros L K W. destruct (message_df_ok m) as [D1 D2].
  assert (T : Forall talk_typed [(message_df m, key)]).
  { constructor; [|constructor]. unfold talk_typed. cbn [fst snd]. rewrite <- D1. split; [exact D2|]. split; [rewrite D2; exact L|exact K]. }
  assert (WA : written_all [(message_df m, key)] b).
  { exists [b]. split; [constructor; [exact W|constructor]|]. cbn [concat]. rewrite app_nil_r. reflexivity. }
  rewrite (say_iff client _ b ms T WA).
  assert (C' : 8 <= mtype_u8 (m_op m) -> blen (df_take (message_df m)) <= 125).
  { destruct (Forall_inv T) as (T1 & T2 & _). destruct (written_frame (message_df m) key b T1 T2 W) as (_ & C & _). rewrite <- D2. exact C. }
  assert (F : map wf_of [(message_df m, key)] = [mkWF true (mtype_u8 (m_op m)) key (df_take (message_df m))]).
  { cbn [map]. unfold wf_of. cbn [fst snd]. rewrite <- D1. reflexivity. }
  pose proof (range_of _ T) as RG. rewrite F in *.
  assert (TALK : forall ms, rfc_talk None [mkWF true (mtype_u8 (m_op m)) key (df_take (message_df m))] ms <-> exists o, ms = [o] /\ meant (mtype_u8 (m_op m)) (df_take (message_df m)) o).
  { intros ms'. split.
    - intros H. inversion H as [|? ? ? ? o ? ms0 O LN M TK|? ? ? o ? ms0 O M TK| | |]; subst; inversion TK; subst; eauto.
    - intros (o & -> & M). destruct (m_op m) eqn:Q; cbn [mtype_u8] in *; try (apply rt_whole; [solve [auto]|exact M|exact rt_end]); (apply rt_control; [auto|apply C'; lia|exact M|exact rt_end]). }
  split.
  - intros [_ (R & M & LN & TK & CO & Z)]. apply TALK in TK. destruct TK as (o & -> & MO). exists o. split; [reflexivity|]. split; [exact MO|].
    split; [constructor; [exact (Forall_inv M)|constructor]|]. split; [exact (Forall_inv LN)|exact (Forall_inv CO)].
  - intros (o & -> & MO & M & LN & CO). split; [constructor; [reflexivity|constructor]|]. split; [exact RG|].
    split; [constructor; [exact (Forall_inv M)|constructor]|]. split; [constructor; [exact LN|constructor]|].
    split; [apply TALK; eauto|]. split; [constructor; [exact CO|constructor]|].
    intros a c b0 x E IN. destruct a as [|y a]; [injection E as _ <-; destruct IN|]. injection E as _ E. destruct a; discriminate E.
Qed.
