(** Proofs that every octet belongs to one message (C139). *)
From Coq Require Import Ascii String NArith ZArith Lia Bool List ZifyBool ZifyNat ZifyN.
From Verif Require Import Base P_Base M_Std M_Helper M_Header M_Url M_Http1 S_Http1 S_Http1Api P_Http1 P_Msg P_Chunk S_Hex S_Stream P_Stream M_Ws S_Ws S_WsApi P_Ws S_WsAll P_WsAll S_WsTalk
  M_Hpack M_Frame M_H2 S_H2Api P_Session S_Packets P_Packets S_Net P_Net S_Own.
Import ListNotations.
Local Open Scope N_scope.

(** The octets of an item are enough for it. *)
Definition enough {S A} (step : S -> bytes -> attempt S A) : Prop := forall s c r s' a, bytes_ok (c ++ r) -> step s (c ++ r) = Give s' a r -> step s c <> Wait.

Section Own.
  Context {S A : Type} (step : S -> bytes -> attempt S A) (ST : steady step) (EN : enough step).
  Lemma trim s c r s' a : bytes_ok (c ++ r) -> step s (c ++ r) = Give s' a r -> step s c = Give s' a [].
  Proof.
    intros B E. pose proof (EN s c r s' a B E) as NW. pose proof B as B0. apply bytes_split in B0 as [Bc _]. destruct (step s c) as [|s1 a1 r1|e] eqn:K; [congruence| |].
    - rewrite (st_give _ ST _ _ _ _ _ r Bc K) in E. injection E as <- <- E. apply (f_equal (@length N)) in E. rewrite app_length in E. destruct r1; [reflexivity|cbn [length] in E; lia].
    - rewrite (st_stop _ ST _ _ _ r B K) in E. discriminate.
  Qed.
  Lemma cut_all s ws got s' r : cut step s ws got s' -> bytes_ok (concat ws ++ r) -> all step s (concat ws ++ r) = (got ++ fst (all step s' r), snd (all step s' r)).
  Proof.
    induction 1 as [s|s w s1 a ws got s2 E C IH]; intros B; cbn [concat app] in *; [destruct (all step s r); reflexivity|]. rewrite <- app_assoc in *.
    pose proof B as B0. apply bytes_split in B0 as [Bw Br]. rewrite (all_give step ST s _ s1 a _ B (st_give _ ST _ _ _ _ _ (concat ws ++ r) Bw E)). cbn [app]. rewrite (IH Br). reflexivity.
  Qed.
  Lemma all_cut l : forall s got st, bytes_ok l -> all step s l = (got, st) -> exists ws s' r, l = concat ws ++ r /\ cut step s ws got s' /\
    match st with Open s2 k => s2 = s' /\ k = r /\ step s' r = Wait | Closed e => step s' r = Stop e end.
  Proof.
    induction l as [l IH] using (induction_ltof1 _ (@length N)). unfold ltof in IH. intros s got st B H. destruct (step s l) as [|s1 a r|e] eqn:E.
    - rewrite (all_wait step s l E) in H. injection H as <- <-. exists [], s, l. repeat split; [constructor|exact E].
    - destruct (less step ST _ _ _ _ _ B E) as [L Br]. rewrite (all_give step ST s l s1 a r B E) in H. injection H as <- <-.
      destruct (st_less _ ST _ _ _ _ _ B E) as (c & _ & ->). destruct (IH r L s1 _ _ Br (surjective_pairing _)) as (ws & s' & r' & -> & C & K).
      exists (c :: ws), s', r'. cbn [concat]. rewrite <- app_assoc. split; [reflexivity|]. split; [|exact K]. eapply cut_more; [exact (trim _ _ _ _ _ B E)|exact C].
    - rewrite (all_stop step s l e E) in H. injection H as <- <-. exists [], s, l. repeat split; [constructor|exact E].
  Qed.
  Lemma own_open s ps got s' kept : bytes_ok (concat ps) ->
    (feed step (Open s []) ps = (got, Open s' kept) <-> exists ws, concat ps = concat ws ++ kept /\ cut step s ws got s' /\ step s' kept = Wait).
  Proof.
    intros B. rewrite (feed_all step ST) by (try apply (st_none _ ST); exact B). cbn [app]. split.
    - intros H. destruct (all_cut _ _ _ _ B H) as (ws & s2 & r & E & C & -> & -> & W). exists ws. auto.
    - intros (ws & E & C & W). rewrite E in *. rewrite (cut_all _ _ _ _ _ C B), (all_wait step s' kept W). cbn [fst snd]. rewrite app_nil_r. reflexivity.
  Qed.
  Lemma own_closed s ps got e : bytes_ok (concat ps) ->
    (feed step (Open s []) ps = (got, Closed e) <-> exists ws s' r, concat ps = concat ws ++ r /\ cut step s ws got s' /\ step s' r = Stop e).
  Proof.
    intros B. rewrite (feed_all step ST) by (try apply (st_none _ ST); exact B). cbn [app]. split.
    - intros H. destruct (all_cut _ _ _ _ B H) as (ws & s2 & r & E & C & W). exists ws, s2, r. auto.
    - intros (ws & s' & r & E & C & W). rewrite E in *. rewrite (cut_all _ _ _ _ _ C B), (all_stop step s' r e W). cbn [fst snd]. rewrite app_nil_r. reflexivity.
  Qed.
  Lemma comparable {X} (a : list X) : forall b c d, a ++ b = c ++ d -> (exists x, a = c ++ x) \/ (exists x, c = a ++ x).
  Proof.
    induction a as [|x a IH]; intros b c d E; [right; exists c; reflexivity|]. destruct c as [|y c]; [left; exists (x :: a); reflexivity|].
    cbn in E. injection E as <- E. destruct (IH _ _ _ E) as [(z & ->)|(z & ->)]; [left|right]; exists z; reflexivity.
  Qed.
  (** No text of an item is the beginning of another one, so there is only one way to divide. *)
  Lemma text_one s w x s1 a1 s2 a2 : bytes_ok (w ++ x) -> step s w = Give s1 a1 [] -> step s (w ++ x) = Give s2 a2 [] -> x = [].
  Proof. intros B E F. apply bytes_split in B as [B _]. rewrite (st_give _ ST _ _ _ _ _ x B E) in F. injection F as _ _ F. exact F. Qed.
  Lemma cut_one s ws got s' : cut step s ws got s' -> forall ws2 got2 s2 r r2, cut step s ws2 got2 s2 -> bytes_ok (concat ws ++ r) -> concat ws ++ r = concat ws2 ++ r2 -> length ws = length ws2 ->
    ws = ws2 /\ got = got2 /\ s' = s2 /\ r = r2.
  Proof.
    induction 1 as [s|s w s1 a ws got s3 E C IH]; intros ws2 got2 s2 r r2 C2 B Q L.
    - inversion C2 as [|? ? ? ? ? ? ? E2 C3]; subst; [|discriminate]. cbn in Q. auto.
    - inversion C2 as [|? w2 s4 a2 ws3 got3 ? E2 C3]; subst; [discriminate|]. cbn [concat length] in *. rewrite <- !app_assoc in Q. rewrite <- app_assoc in B.
      assert (w = w2).
      { pose proof B as B2. rewrite Q in B2. apply bytes_split in B as [Bw _]. apply bytes_split in B2 as [Bw2 _]. destruct (comparable _ _ _ _ Q) as [(x & ->)|(x & ->)].
        - rewrite (text_one _ _ _ _ _ _ _ Bw E2 E), app_nil_r. reflexivity.
        - rewrite (text_one _ _ _ _ _ _ _ Bw2 E E2), app_nil_r. reflexivity. }
      subst w2. apply app_inv_head in Q. rewrite E in E2. injection E2 as <- <-. apply bytes_split in B as [_ B].
      destruct (IH _ _ _ _ _ C3 B Q) as (-> & -> & -> & ->); [lia|auto].
  Qed.
End Own.

(** ** HTTP/1 *)
Lemma chunks_enough k : forall d r ds, read_chunks k (d ++ r) = Ok (ds, r) -> forall k', (length d < k')%nat -> read_chunks k' d = Ok (ds, []).
Proof.
  induction k as [|k IH]; intros d r ds H k' K'; [discriminate|]. cbn [read_chunks] in H. destruct (parse_chunk_data (d ++ r)) as [[off n]|e| |] eqn:E; try discriminate. cbn [bind] in H.
  apply chunk_exact in E as (line & rest & Q & SL & -> & F & L). rewrite Q in H.
  assert (E1 : skipn (N.to_nat (blen line)) (line ++ rest) = rest) by (unfold blen; rewrite Nnat.Nat2N.id, skipn_app, skipn_all, Nat.sub_diag; reflexivity).
  rewrite E1 in H.
  assert (exists c, skipn (N.to_nat (n + 2)) rest = c ++ r) as (c & Hc).
  { destruct (n =? 0); [injection H as _ H; exists []; exact H|]. destruct (read_chunks k _) as [[ds' r']|e| |] eqn:R; try discriminate. cbn [bind] in H. injection H as _ <-.
    exact (chunks_suffix _ _ _ _ R). }
  assert (Er : rest = firstn (N.to_nat (n + 2)) rest ++ c ++ r) by (rewrite <- Hc, firstn_skipn; reflexivity).
  set (b := firstn (N.to_nat (n + 2)) rest) in *. assert (Lb : blen b = n + 2) by (unfold b, blen in *; rewrite firstn_length; lia).
  assert (Ed : d = line ++ b ++ c). { rewrite Er in Q. rewrite !app_assoc in Q. apply app_inv_tail in Q. rewrite Q, app_assoc. reflexivity. }
  assert (P : parse_chunk_data d = Ok (blen line, n)). { apply chunk_exact. exists line, (b ++ c). repeat split; auto. rewrite blen_app. lia. }
  assert (E2 : skipn (N.to_nat (blen line)) d = b ++ c) by (rewrite Ed; unfold blen; rewrite Nnat.Nat2N.id, skipn_app, skipn_all, Nat.sub_diag; reflexivity).
  assert (E3 : skipn (N.to_nat (n + 2)) (b ++ c) = c) by (rewrite <- Lb; unfold blen; rewrite Nnat.Nat2N.id, skipn_app, skipn_all, Nat.sub_diag; reflexivity).
  assert (E4 : firstn (N.to_nat n) (b ++ c) = firstn (N.to_nat n) rest).
  { rewrite Er. rewrite !firstn_app. replace (N.to_nat n - length b)%nat with 0%nat by (unfold blen in Lb; lia). reflexivity. }
  destruct k' as [|k']; [lia|]. assert (LC : (length c < k')%nat) by (rewrite Ed, !app_length in K'; unfold blen in Lb; lia).
  rewrite Hc in H. destruct (n =? 0) eqn:Z.
  - injection H as <- H. assert (c = []) by (apply (f_equal (@length N)) in H; rewrite app_length in H; destruct c; [reflexivity|cbn [length] in H; lia]). subst c.
    cbn [read_chunks]. rewrite P. cbn [bind]. rewrite E2, E3, Z. reflexivity.
  - destruct (read_chunks k (c ++ r)) as [[ds' r']|e| |] eqn:R; try discriminate. cbn [bind] in H. injection H as <- ->. pose proof (IH _ _ _ R k' LC) as K.
    cbn [read_chunks]. rewrite P. cbn [bind]. rewrite E2, E3, Z, K. cbn [bind]. rewrite E4. reflexivity.
Qed.
Lemma body_enough h d r b : read_body h (d ++ r) = Ok (b, r) -> read_body h d <> partial.
Proof.
  unfold read_body. destruct (hm_is_chunked h).
  - destruct (read_chunks _ (d ++ r)) as [[cs r']|e| |] eqn:R; try discriminate. cbn [bind]. intros H. injection H as _ ->. rewrite (chunks_enough _ _ _ _ R (Datatypes.S (length d)) ltac:(lia)). discriminate.
  - destruct (hm_body_len h) as [n|e| |]; cbn [bind]; try discriminate. destruct (n <? 0)%Z; [discriminate|]. destruct (take_N (Z.to_N n) (d ++ r)) as [[b' r']|] eqn:T; [|discriminate].
    intros H. injection H as -> ->. apply take_N_some in T as [E L]. apply app_inv_tail in E. subst d. rewrite <- (app_nil_r b), (take_N_app _ b [] L). discriminate.
Qed.
Lemma message_enough {A} (parse : bytes -> res (A * N)) header : head_steady parse ->
  (forall l a n x, bytes_ok l -> parse l = Ok (a, n) -> parse (firstn (N.to_nat n) l ++ x) = Ok (a, n)) -> enough (message_step parse header).
Proof.
  intros HS HT s c r s' m B E. destruct (step_cases parse header s (c ++ r)) as [[_ K]|[_ K]]; rewrite K in E; [discriminate|]. clear K.
  destruct (read_message parse header (c ++ r)) as [[[a b] r']|e| |] eqn:R; try discriminate. injection E as _ _ ->. unfold read_message in R.
  destruct (parse (c ++ r)) as [[a1 n]|e| |] eqn:P; try discriminate. cbn [bind] in R.
  destruct (read_body (header a1) (skipn (N.to_nat n) (c ++ r))) as [[b1 r1]|e| |] eqn:RB; try discriminate. cbn [bind] in R. injection R as -> -> ->.
  assert (Ln : n <= blen c).
  { apply body_suffix in RB as (y & Y). destruct (hs_some _ HS _ _ _ B P) as [_ Ln]. apply (f_equal (@length N)) in Y. rewrite skipn_length, !app_length in Y. rewrite blen_app in Ln. unfold blen in *. lia. }
  rewrite (skip_app c r n Ln) in RB. apply body_enough in RB.
  assert (Pc : parse c = Ok (a, n)).
  { rewrite <- (firstn_skipn (N.to_nat n) c). replace (firstn (N.to_nat n) c) with (firstn (N.to_nat n) (c ++ r)); [apply HT; assumption|].
    rewrite firstn_app. replace (N.to_nat n - length c)%nat with 0%nat by (unfold blen in Ln; lia). cbn [firstn]. apply app_nil_r. }
  destruct (step_cases parse header s c) as [[K _]|[NK K]].
  - exfalso. unfold read_message in K. rewrite Pc in K. cbn [bind] in K. destruct (read_body (header a) (skipn (N.to_nat n) c)) as [[b2 r2]|e| |]; cbn [bind] in K; try discriminate. apply RB. injection K as ->. reflexivity.
  - rewrite K. destruct (read_message parse header c) as [[[a2 b2] r2]|e| |]; discriminate.
Qed.
Lemma request_enough : enough request_step.
Proof.
  apply message_enough; [exact request_head|]. intros l a n x B E. unfold parse_request in *. destruct (req_parse req_default l) as [q r] eqn:R. destruct r as [m|e| |]; try discriminate.
  cbn in E. injection E as <- <-. rewrite (proj2 (req_tail req_default l q m x B R)). reflexivity.
Qed.
Lemma response_enough : enough response_step.
Proof.
  apply message_enough; [exact response_head|]. intros l a n x B E. unfold parse_response in *. destruct (resp_parse resp_default l) as [q r] eqn:R. destruct r as [m|e| |]; try discriminate.
  cbn in E. injection E as <- <-. rewrite (proj2 (resp_tail resp_default l q m x B R)). reflexivity.
Qed.
(** ** WebSocket *)
Lemma frame_enough limit : enough (frame_step limit).
Proof.
  intros s c r s' d B E. destruct (frame_cases4 limit s (c ++ r)) as [[_ K]|[_ K]]; rewrite K in E; [discriminate|]. clear K.
  destruct (read_limited limit (c ++ r)) as [[d1 r1]|e| |] eqn:R; try discriminate. injection E as _ -> ->. apply limited_ok in R as [R L].
  destruct (read_dataframe_inv _ d r B R) as (key & Q & C & Ld & Hk). apply app_inv_tail in Q.
  assert (Rc : read_dataframe c = Ok (d, [])).
  { rewrite Q. rewrite <- (app_nil_r (spec_frame _ _ _ _ _ _ _)). destruct d as [fin [[r1 r2] r3] op data]. cbn [d_fin d_rsv d_op d_data fst snd] in *. apply read_dataframe_spec; assumption. }
  assert (Rl : read_limited limit c = Ok (d, [])) by (apply limited_ok; auto).
  destruct (frame_cases4 limit s c) as [[K _]|[_ K]]; [congruence|]. rewrite K, Rl. discriminate.
Qed.
Lemma talk_enough limit : enough (talk_step limit).
Proof.
  intros p c r p' ms B E. unfold talk_step in E. destruct (frame_step limit tt (c ++ r)) as [|u d r1|e] eqn:F; [discriminate| |discriminate].
  destruct (ws_take p d) as [[ms1 p1]|e| |] eqn:T; try discriminate. injection E as _ _ ->.
  pose proof (trim (frame_step limit) (frame_steady limit) (frame_enough limit) tt c r u d B F) as K. unfold talk_step. rewrite K, T. discriminate.
Qed.
(** ** HTTP/2 *)
Lemma h2_enough L : enough (h2_step L).
Proof.
  intros t c r t' f B E. unfold h2_step in E. destruct (complete_frame (c ++ r)) eqn:C; [|discriminate].
  destruct (complete_cases _ C) as [(hd & h & p & r' & Q & Lh & F & P)|(K & e & K')].
  - rewrite Q in E. destruct (complete_given hd h p r' t L Lh F P) as [_ R]. rewrite R in E. destruct (frame_parse t h p L) as [t1 [f1|e| |]] eqn:FP; try discriminate. injection E as _ _ ->.
    rewrite app_assoc in Q. apply app_inv_tail in Q. subst c. destruct (complete_given hd h p [] t L Lh F P) as [C2 R2]. rewrite app_nil_r in C2, R2. unfold h2_step. rewrite C2, R2, FP. discriminate.
  - unfold recv in E. rewrite K' in E. discriminate.
Qed.
