(** Proofs about what stops a receiver (C137). *)
From Coq Require Import Ascii String NArith ZArith Lia Bool List ZifyBool ZifyNat ZifyN.
From Verif Require Import Base P_Base M_Std M_Helper M_Header M_Url M_Http1 S_Http1 S_Http1Api P_Http1 P_Msg P_Chunk S_Map P_Map S_Hex S_Stream P_Stream S_Reject P_Reject M_Ws S_Ws S_WsApi P_Ws S_WsAll P_WsAll S_WsTalk M_Hpack S_Hpack S_HpackApi P_HpackSync M_Frame M_H2 S_H2Api S_Refuse P_Refuse P_H2All S_Packets P_Packets S_Net P_Net S_Crash.
Import ListNotations.
Local Open Scope N_scope.

Lemma skip_skip {A} (l : list A) : forall a b, skipn a (skipn b l) = skipn (a + b) l.
Proof.
  induction l as [|x l IH]; intros a b; [rewrite !skipn_nil; reflexivity|]. destruct b as [|b]; [rewrite Nat.add_0_r; reflexivity|].
  rewrite Nat.add_succ_r. cbn [skipn]. apply IH.
Qed.
Section Crash.
  Context {S A : Type} (step : S -> bytes -> attempt S A) (ST : steady step).
  Lemma closed_iff l : forall s e, bytes_ok l -> (exists got, all step s l = (got, Closed e)) <-> exists got s' r, delivers step s l got s' r /\ step s' r = Stop e.
  Proof.
    induction l as [l IH] using (induction_ltof1 _ (@length N)). unfold ltof in IH. intros s e B. destruct (step s l) as [|s1 a r|e'] eqn:E.
    - rewrite (all_wait step s l E). split; [intros (g & K); discriminate|]. intros (g & s' & r & D & K). inversion D; subst; congruence.
    - destruct (less step ST _ _ _ _ _ B E) as [L Br]. rewrite (all_give step ST s l s1 a r B E). specialize (IH r L s1 e Br). split.
      + intros (g & K). injection K as _ K. destruct (proj1 IH) as (got & s' & r' & D & K'). { exists (fst (all step s1 r)). rewrite <- K. apply surjective_pairing. }
        exists (a :: got), s', r'. split; [eapply dl_more; eassumption|exact K'].
      + intros (g & s' & r' & D & K). inversion D as [|? ? s2 a2 r2 got s3 r3 E2 D2]; subst; [congruence|]. rewrite E in E2. injection E2 as <- <- <-.
        destruct (proj2 IH) as (got' & K'). { exists got, s', r'. auto. } rewrite K'. cbn [fst snd]. eexists. reflexivity.
    - rewrite (all_stop step s l e' E). split.
      + intros (g & K). injection K as _ <-. exists [], s, l. split; [apply dl_none|exact E].
      + intros (g & s' & r & D & K). inversion D; subst; [|congruence]. rewrite E in K. injection K as <-. eexists. reflexivity.
  Qed.
  Lemma fed_iff s ps e : bytes_ok (concat ps) -> (exists got, feed step (Open s []) ps = (got, Closed e)) <-> exists got s' r, delivers step s (concat ps) got s' r /\ step s' r = Stop e.
  Proof. intros B. rewrite <- closed_iff by exact B. rewrite (feed_all step ST) by (try apply (st_none _ ST); exact B). reflexivity. Qed.
  Lemma delivers_bytes s l got s' r : delivers step s l got s' r -> bytes_ok l -> bytes_ok r.
  Proof. induction 1 as [s l|s l s1 a r got s2 r2 E D IH]; intros B; [exact B|]. apply IH. exact (proj2 (less step ST _ _ _ _ _ B E)). Qed.
End Crash.

Lemma chunks_panic l : forall k, (length l < k)%nat -> (read_chunks k l = Panic <-> exists r, chunks_then l r /\ chunk_crash r) /\ read_chunks k l <> Diverge.
Proof.
  induction l as [l IH] using (induction_ltof1 _ (@length N)). unfold ltof in IH. intros [|k] K; [lia|]. cbn [read_chunks].
  assert (Uniq : forall line1 n1 r1 line2 n2 r2, size_line line1 n1 -> size_line line2 n2 -> n1 + 2 < 2 ^ 64 -> n2 + 2 < 2 ^ 64 -> n1 + 2 <= blen r1 -> n2 + 2 <= blen r2 ->
            line1 ++ r1 = line2 ++ r2 -> line1 = line2 /\ n1 = n2 /\ r1 = r2).
  { intros line1 n1 r1 line2 n2 r2 S1 S2 F1 F2 L1 L2 E. assert (P1 : parse_chunk_data (line1 ++ r1) = Ok (blen line1, n1)) by (apply chunk_exact; exists line1, r1; auto).
    assert (P2 : parse_chunk_data (line1 ++ r1) = Ok (blen line2, n2)) by (apply chunk_exact; exists line2, r2; auto). rewrite P1 in P2. injection P2 as B ->.
    assert (line1 = line2) by (apply (f_equal (firstn (length line1))) in E; unfold blen in B; apply Nnat.Nat2N.inj in B; rewrite firstn_app, firstn_all, Nat.sub_diag in E; cbn [firstn] in E;
      rewrite app_nil_r in E; rewrite B in E; rewrite firstn_app, firstn_all, Nat.sub_diag in E; cbn [firstn] in E; rewrite app_nil_r in E; exact E). subst line2. apply app_inv_head in E. auto. }
  destruct (parse_chunk_data l) as [[off n]|e| |] eqn:E; cbn [bind].
  - pose proof E as E0. apply chunk_exact in E as (line & rest & -> & SL & -> & F & L).
    assert (E1 : skipn (N.to_nat (blen line)) (line ++ rest) = rest).
    { unfold blen. rewrite Nnat.Nat2N.id, skipn_app, skipn_all, Nat.sub_diag. reflexivity. }
    rewrite E1. assert (NC : ~ chunk_crash (line ++ rest)) by (intros C; apply chunk_crash_iff in C; congruence).
    destruct (N.eqb_spec n 0) as [Z|Z].
    + split; [|discriminate]. split; [discriminate|]. intros (r & T & C). exfalso. inversion T as [l0 E2 E3|line2 d e l2 r2 SL2 D2 F2 L2 T2 E2]; subst; [contradiction|].
      destruct (Uniq line2 (blen d) (d ++ e ++ l2) line 0 rest) as (_ & Q & _); try assumption; [rewrite !blen_app; unfold blen; lia|]. destruct d; [contradiction|]. unfold blen in Q. cbn in Q. lia.
    + assert (LS : (length (skipn (N.to_nat (n + 2)) rest) + 2 <= length rest)%nat) by (rewrite skipn_length; unfold blen in L; lia).
      rewrite app_length in *. destruct (IH (skipn (N.to_nat (n + 2)) rest) ltac:(lia) k ltac:(lia)) as [I1 I2].
      assert (SP : rest = firstn (N.to_nat n) rest ++ firstn 2 (skipn (N.to_nat n) rest) ++ skipn (N.to_nat (n + 2)) rest).
      { replace (N.to_nat (n + 2)) with (2 + N.to_nat n)%nat by lia. rewrite <- skip_skip. rewrite firstn_skipn, firstn_skipn. reflexivity. }
      assert (LD : blen (firstn (N.to_nat n) rest) = n) by (unfold blen in *; rewrite firstn_length; lia).
      assert (LE : length (firstn 2 (skipn (N.to_nat n) rest)) = 2%nat) by (rewrite firstn_length, skipn_length; unfold blen in L; lia).
      split; [|destruct (read_chunks k _) as [[ds l3]|e| |] eqn:Q; cbn [bind]; congruence].
      transitivity (read_chunks k (skipn (N.to_nat (n + 2)) rest) = Panic); [destruct (read_chunks k _) as [[ds l3]|e| |]; cbn [bind]; split; intros Q; try reflexivity; discriminate Q|].
      rewrite I1. split.
      * intros (r & T & C). exists r. split; [|exact C]. rewrite SP. apply ct_more; [rewrite LD; exact SL|intros Q; rewrite Q in LD; unfold blen in LD; cbn in LD; lia|rewrite LD; exact F|exact LE|exact T].
      * intros (r & T & C). exists r. split; [|exact C]. inversion T as [l0 E2 E3|line2 d e l2 r2 SL2 D2 F2 L2 T2 E2]; subst; [contradiction|].
        destruct (Uniq line2 (blen d) (d ++ e ++ l2) line n rest) as (_ & Q & R); try assumption; [rewrite !blen_app; unfold blen; lia|]. subst n rest.
        replace (skipn (N.to_nat (blen d + 2)) (d ++ e ++ l2)) with l2; [exact T2|]. rewrite app_assoc. rewrite skipn_app.
        replace (N.to_nat (blen d + 2)) with (length (d ++ e)) by (rewrite app_length; unfold blen; lia). rewrite skipn_all, Nat.sub_diag. reflexivity.
  - split; [|discriminate]. split; [discriminate|]. intros (r & T & C). exfalso. inversion T as [l0 E2 E3|line2 d x l2 r2 SL2 D2 F2 L2 T2 E2]; subst; [apply chunk_crash_iff in C; congruence|].
    assert (P : parse_chunk_data (line2 ++ d ++ x ++ l2) = Ok (blen line2, blen d)) by (apply chunk_exact; exists line2, (d ++ x ++ l2); repeat split; auto; rewrite !blen_app; unfold blen; lia). congruence.
  - split; [|discriminate]. split; [|reflexivity]. intros _. exists l. split; [apply ct_here|apply chunk_crash_iff, E].
  - destruct (chunk_no_diverge l E).
Qed.
Lemma body_panic h l : (read_body h l = Panic <-> body_crash h l) /\ read_body h l <> Diverge.
Proof.
  unfold read_body. destruct (hm_is_chunked h) eqn:C.
  - destruct (chunks_panic l (S (length l)) ltac:(lia)) as [P D]. split; [|destruct (read_chunks _ l) as [[ds r]|e| |] eqn:Q; cbn [bind]; congruence].
    transitivity (read_chunks (S (length l)) l = Panic); [destruct (read_chunks _ l) as [[ds r]|e| |]; cbn [bind]; split; intros Q; try reflexivity; discriminate Q|]. rewrite P. split.
    + intros (r & T & K). exact (bc_chunk h l r C T K).
    + intros [v p z q K|r _ T K]; [congruence|exists r; auto].
  - assert (D : hm_body_len h <> Diverge).
    { unfold hm_body_len. destruct (hm_get h (str "content-length")) as [v|]; [|discriminate]. destruct (value_isize v) eqn:Q; try discriminate. intros _. revert Q. apply isize_loop_returns. }
    split.
    + transitivity (hm_body_len h = Panic).
      * destruct (hm_body_len h) as [n|e| |]; cbn [bind]; try (split; congruence). destruct (n <? 0)%Z; [split; discriminate|]. destruct (take_N (Z.to_N n) l) as [[b r]|]; split; discriminate.
      * rewrite body_len_panic. split.
        -- intros (v & G & p & z & q & E & X & R). exact (bc_length h l v p z q C G E X R).
        -- intros [v p z q _ G E X R|r K _ _]; [exists v; split; [exact G|]; exists p, z, q; auto|congruence].
    + destruct (hm_body_len h) as [n|e| |]; cbn [bind]; try congruence. destruct (n <? 0)%Z; [discriminate|]. destruct (take_N (Z.to_N n) l) as [[b r]|]; discriminate.
Qed.
Lemma message_panic {A} (parse : bytes -> res (A * N)) header u l : (forall l, parse l <> Panic /\ parse l <> Diverge) ->
  (message_step parse header u l = Stop Panic <-> exists a n, parse l = Ok (a, n) /\ body_crash (header a) (skipn (N.to_nat n) l)) /\ message_step parse header u l <> Stop Diverge.
Proof.
  intros T. destruct (T l) as [T1 T2]. unfold message_step, read_message. destruct (parse l) as [[a n]|e| |]; cbn [bind]; try congruence.
  - destruct (body_panic (header a) (skipn (N.to_nat n) l)) as [P D]. destruct (read_body (header a) (skipn (N.to_nat n) l)) as [[b r]|e| |]; cbn [bind].
    + split; [|discriminate]. split; [discriminate|]. intros (a' & n' & E & C). injection E as <- <-. apply P in C. discriminate.
    + split; [split|].
      * destruct e as [ [] | | | | | | | ]; discriminate.
      * intros (a' & n' & E & C). injection E as <- <-. apply P in C. discriminate.
      * destruct e as [ [] | | | | | | | ]; discriminate.
    + split; [|discriminate]. split; [|reflexivity]. intros _. exists a, n. split; [reflexivity|apply P; reflexivity].
    + congruence.
  - split; [split|].
    + destruct e as [ [] | | | | | | | ]; discriminate.
    + intros (a' & n' & E & C). discriminate.
    + destruct e as [ [] | | | | | | | ]; discriminate.
Qed.
Lemma request_total l : parse_request l <> Panic /\ parse_request l <> Diverge.
Proof. unfold parse_request. destruct (req_total req_default l) as [A B]. destruct (req_parse req_default l) as [q [n|e| |]]; cbn in *; split; congruence. Qed.
Lemma response_total l : parse_response l <> Panic /\ parse_response l <> Diverge.
Proof. unfold parse_response. destruct (resp_total resp_default l) as [A B]. destruct (resp_parse resp_default l) as [q [n|e| |]]; cbn in *; split; congruence. Qed.
Lemma frame_calm limit s l : frame_step limit s l <> Stop Panic /\ frame_step limit s l <> Stop Diverge.
Proof.
  unfold frame_step. fold (read_limited limit l). destruct (limited_total limit l) as [(d & r & ->)|(e & ->)]; [split; discriminate|].
  destruct e as [ | | | | | | |k]; try (split; discriminate). destruct k; split; discriminate.
Qed.
Lemma owned_total ds : owned_from_dataframes ds <> Panic /\ owned_from_dataframes ds <> Diverge.
Proof.
  unfold owned_from_dataframes. destruct (message_cases ds) as [(m & K)|(e & K)]; [apply message_good_iff in K|apply message_bad_iff in K]; rewrite K; split; discriminate.
Qed.
Lemma talk_calm limit p l : talk_step limit p l <> Stop Panic /\ talk_step limit p l <> Stop Diverge.
Proof.
  unfold talk_step. destruct (frame_calm limit tt l) as [A B]. destruct (frame_step limit tt l) as [|u d r|e]; [split; discriminate| |split; congruence].
  unfold ws_take. destruct (8 <=? opcode_u8 (d_op d)).
  - destruct (owned_total [dataframe_df d]). destruct (owned_from_dataframes [dataframe_df d]); cbn [bind]; split; congruence.
  - destruct (d_fin d); [|split; discriminate]. destruct (owned_total (map dataframe_df (p ++ [d]))). destruct (owned_from_dataframes (map dataframe_df (p ++ [d]))); cbn [bind]; split; congruence.
Qed.
Lemma short_stop t L l : decoder_reach t -> bytes_ok l -> complete_frame l = false -> snd (recv t L l) = Err (EHttp2 Short).
Proof.
  intros R B C. unfold complete_frame in C. unfold recv. destruct (blen l <? 9) eqn:S.
  - unfold fh_parse. change FRAME_HEADER_BYTES with 9. rewrite S. reflexivity.
  - destruct (fh_parse l) as [[h r]| | |]; try discriminate. destruct (take_N (fh_length h) r); [discriminate|reflexivity].
Qed.
Lemma h2_panic L t l : decoder_reach t -> bytes_ok l -> (h2_step L t l = Stop Panic <-> crashes l) /\ (h2_step L t l = Stop Diverge <-> hangs t l).
Proof.
  intros R B. rewrite <- (recv_panic_iff t L l (reach_inv _ R) B), <- (recv_diverge_iff t L l (reach_inv _ R) B). unfold h2_step. destruct (complete_frame l) eqn:C.
  - destruct (recv t L l) as [t' [[f r]|e| |]]; cbn [snd]; split; split; congruence.
  - rewrite (short_stop t L l R B C). split; split; discriminate.
Qed.
Lemma h2_reached L t l got t' r : delivers (h2_step L) t l got t' r -> decoder_reach t -> decoder_reach t'.
Proof.
  induction 1 as [s l|s l s1 a r got s2 r2 E D IH]; intros R; [exact R|]. apply IH. unfold h2_step in E. destruct (complete_frame l); [|discriminate].
  pose proof (recv_reach s L l R) as K. destruct (recv s L l) as [t1 [[f r1]|e| |]]; try discriminate. injection E as <- _ _. exact K.
Qed.
