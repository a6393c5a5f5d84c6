(** Proofs about sending over a network (C135). *)
From Coq Require Import Ascii String NArith ZArith Lia Bool List ZifyBool ZifyNat ZifyN.
From Verif Require Import Base P_Base M_Header M_Url M_Http1 S_Http1 S_Http1Api S_Stream P_Stream M_Ws S_Ws S_WsApi P_Ws S_WsTalk P_WsTalk M_Hpack M_Frame M_H2 S_H2Api S_Session P_Session S_Packets P_Packets S_Net.
Import ListNotations.
Local Open Scope N_scope.

Section Net.
  Context {S A : Type} (step : S -> bytes -> attempt S A) (ST : steady step).
  Lemma all_one s x : bytes_ok x -> feed step (Open s []) [x] = all step s x.
  Proof. intros B. rewrite (feed_all step ST) by (try apply (st_none _ ST); cbn [app concat]; rewrite ?app_nil_r; exact B). cbn [app concat]. rewrite app_nil_r. reflexivity. Qed.
  Lemma all_none s l s' : bytes_ok l -> all step s l = ([], Open s' []) -> l = [].
  Proof.
    intros B E. destruct (step s l) as [|s1 a r|e] eqn:Q.
    - rewrite (all_wait step s l Q) in E. congruence.
    - rewrite (all_give step ST s l s1 a r B Q) in E. discriminate.
    - rewrite (all_stop step s l e Q) in E. discriminate.
  Qed.
  Lemma net s w got s' : bytes_ok w -> all step s w = (got, Open s' []) -> carries step s w got s'.
  Proof.
    intros B E. constructor.
    - intros ps missing <- M. pose proof B as B0. apply bytes_split in B0 as [B1 B2].
      rewrite (feed_all step ST) by (try apply (st_none _ ST); exact B1). cbn [app]. rewrite (all_more step ST _ s _ B) in E.
      destruct (all step s (concat ps)) as [some st] eqn:Q. cbn [fst snd] in E. destruct st as [s1 kept|e]; [|discriminate].
      exists some, (fst (all step s1 (kept ++ missing))), s1, kept. split; [reflexivity|]. destruct (all step s1 (kept ++ missing)) as [later st] eqn:Q2. cbn [fst snd] in *.
      injection E as <- ->. split; [reflexivity|]. intros ->. destruct (open_kept step ST (concat ps) s s1 kept B1) as [Bk _]; [rewrite Q; reflexivity|].
      apply all_none in Q2; [|apply bytes_split; auto]. apply app_eq_nil in Q2 as [_ K]. contradiction.
    - intros ps <-. rewrite (feed_all step ST) by (try apply (st_none _ ST); exact B). exact E.
    - intros ps x P Bx. assert (Bp : bytes_ok (concat ps)) by (rewrite P; apply bytes_split; auto).
      rewrite (feed_all step ST) by (try apply (st_none _ ST); exact Bp). cbn [app]. rewrite P in *. rewrite (all_more step ST _ s _ Bp), E. cbn [fst snd app].
      pose proof (all_one s' x Bx) as K. unfold bytes in *. rewrite K. auto.
  Qed.
End Net.

Lemma message_all {A} (parse : bytes -> res (A * N)) header : head_steady parse -> forall k l got,
  bytes_ok l -> read_messages parse header k l = Ok (got, []) -> all (message_step parse header) tt l = (got, Open tt []).
Proof.
  intros H k. pose proof (message_steady parse header H) as ST. induction k as [|k IH]; intros l got B E; cbn [read_messages] in E.
  - injection E as <- ->. apply all_wait, (st_none _ ST).
  - apply bind_ok in E as ([[a b] r] & E1 & E). apply bind_ok in E as ([ms r'] & E2 & E). injection E as <- ->.
    assert (G : message_step parse header tt l = Give tt (a, b) r) by (unfold message_step; rewrite E1; reflexivity).
    rewrite (all_give _ ST _ _ _ _ _ B G). destruct (less _ ST _ _ _ _ _ B G) as [_ Br]. rewrite (IH r ms Br E2). reflexivity.
Qed.
Lemma talk_steady limit : steady (talk_step limit).
Proof.
  pose proof (frame_steady limit) as ST. constructor.
  - intros p l p' ms r B E. unfold talk_step in E. destruct (frame_step limit tt l) as [|u d r'|e] eqn:F; [discriminate| |discriminate].
    destruct (ws_take p d) as [[m q]|e| |]; try discriminate. injection E as <- <- <-. exact (st_less _ ST _ _ _ _ _ B F).
  - intros p l p' ms r x B E. unfold talk_step in *. destruct (frame_step limit tt l) as [|u d r'|e] eqn:F; [discriminate| |discriminate].
    rewrite (st_give _ ST _ _ _ _ _ x B F). destruct (ws_take p d) as [[m q]|e| |]; try discriminate. injection E as <- <- <-. reflexivity.
  - intros p l e x B E. pose proof B as B0. apply bytes_split in B0 as [Bl _]. unfold talk_step in *. destruct (frame_step limit tt l) as [|u d r'|e'] eqn:F; [discriminate| |].
    + rewrite (st_give _ ST _ _ _ _ _ x Bl F). destruct (ws_take p d) as [[m q]|e1| |]; congruence.
    + rewrite (st_stop _ ST _ _ _ x B F). exact E.
  - intros p. unfold talk_step. rewrite (st_none _ ST). reflexivity.
Qed.
Lemma talk_all limit k : forall l ds pending ms q, bytes_ok l -> match limit with Some n => Forall (fun d => blen (d_data d) <= n) ds | None => True end ->
  read_frames k l = Ok (ds, []) -> ws_frames pending ds = Ok (ms, q) -> exists got, all (talk_step limit) pending l = (got, Open q []) /\ concat got = ms.
Proof.
  pose proof (talk_steady limit) as ST. induction k as [|k IH]; intros l ds pending ms q B F E W; cbn [read_frames] in E.
  - injection E as <- ->. cbn in W. injection W as <- <-. exists []. split; [apply all_wait, (st_none _ ST)|reflexivity].
  - apply bind_ok in E as ([d r] & E1 & E). apply bind_ok in E as ([ds' r'] & E2 & E). injection E as <- ->. cbn [ws_frames] in W.
    apply bind_ok in W as ([m p1] & W1 & W). apply bind_ok in W as ([ms' p2] & W2 & W). injection W as <- <-.
    assert (R : read_limited limit l = Ok (d, r)) by (apply limited_ok; split; [exact E1|]; destruct limit; [inversion F; assumption|exact Logic.I]).
    assert (G : talk_step limit pending l = Give p1 m r) by (unfold talk_step, frame_step; fold (read_limited limit l); rewrite R, W1; reflexivity).
    destruct (less _ ST _ _ _ _ _ B G) as [_ Br]. destruct (IH r ds' p1 ms' p2 Br) as (got & A & <-); [destruct limit; [inversion F; assumption|exact F]|exact E2|exact W2|].
    exists (m :: got). split; [|reflexivity]. rewrite (all_give _ ST _ _ _ _ _ B G), A. reflexivity.
Qed.
Lemma recv_complete t L l t' f r : recv t L l = (t', Ok (f, r)) -> complete_frame l = true.
Proof.
  unfold recv, complete_frame. intros E. destruct (blen l <? 9) eqn:K; [unfold fh_parse in E; change FRAME_HEADER_BYTES with 9 in E; rewrite K in E; discriminate|].
  destruct (fh_parse l) as [[h r']|e| |]; try reflexivity. destruct (take_N (fh_length h) r'); [reflexivity|discriminate].
Qed.
Lemma reads_all L t l t' fs r : reads L t l t' fs r -> bytes_ok l -> r = [] -> all (h2_step L) t l = (fs, Open t' []).
Proof.
  pose proof (h2_steady L) as ST. induction 1 as [t l|t l t1 f l1 t2 fs l2 E R IH]; intros B K.
  - subst l. apply all_wait, (st_none _ ST).
  - assert (G : h2_step L t l = Give t1 f l1) by (unfold h2_step; rewrite (recv_complete _ _ _ _ _ _ E), E; reflexivity).
    rewrite (all_give _ ST _ _ _ _ _ B G). destruct (less _ ST _ _ _ _ _ B G) as [_ Br]. rewrite (IH Br K). reflexivity.
Qed.
