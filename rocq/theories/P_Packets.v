(** Proofs about packets (C134). *)
From Coq Require Import Ascii String NArith ZArith Lia Bool List ZifyBool ZifyNat ZifyN.
From Verif Require Import Base P_Base M_Std M_Helper M_Header M_Url M_Http1 S_Http1 S_Http1Api P_Http1 P_Msg P_Chunk S_Map S_Stream P_Stream M_Ws S_Ws S_WsApi P_Ws S_WsAll P_WsAll M_Hpack M_Frame M_H2 S_H2Api P_Session S_Packets.
Import ListNotations.
Local Open Scope N_scope.

(** ** Any reader whose answers other than "wait" stay when octets follow *)
Record steady {S A} (step : S -> bytes -> attempt S A) : Prop := mkSteady {
  st_less : forall s l s' a r, bytes_ok l -> step s l = Give s' a r -> exists c, c <> [] /\ l = c ++ r;
  st_give : forall s l s' a r x, bytes_ok l -> step s l = Give s' a r -> step s (l ++ x) = Give s' a (r ++ x);
  st_stop : forall s l e x, bytes_ok (l ++ x) -> step s l = Stop e -> step s (l ++ x) = Stop e;
  st_none : forall s, step s [] = Wait }.
Lemma bytes_split a b : bytes_ok (a ++ b) <-> bytes_ok a /\ bytes_ok b. Proof. apply Forall_app. Qed.
Section Steady.
  Context {S A : Type} (step : S -> bytes -> attempt S A) (ST : steady step).
  Lemma less s l s' a r : bytes_ok l -> step s l = Give s' a r -> (length r < length l)%nat /\ bytes_ok r.
  Proof. intros B E. destruct (st_less _ ST _ _ _ _ _ B E) as (c & N & ->). apply bytes_split in B as [_ B]. rewrite app_length. destruct c; [congruence|cbn; split; [lia|exact B]]. Qed.
  Lemma drain_fuel l : forall k k' s, bytes_ok l -> (length l < k)%nat -> (length l < k')%nat -> drain step k s l = drain step k' s l.
  Proof.
    induction l as [l IH] using (induction_ltof1 _ (@length N)). unfold ltof in IH. intros [|k] [|k'] s B K K'; try lia. cbn [drain].
    destruct (step s l) as [|s' a r|e] eqn:E; [reflexivity| |reflexivity]. destruct (less _ _ _ _ _ B E) as [L Br]. rewrite (IH r L k k' s' Br) by lia. reflexivity.
  Qed.
  Lemma all_wait s l : step s l = Wait -> all step s l = ([], Open s l).
  Proof. intros E. unfold all. cbn [drain]. rewrite E. reflexivity. Qed.
  Lemma all_stop s l e : step s l = Stop e -> all step s l = ([], Closed e).
  Proof. intros E. unfold all. cbn [drain]. rewrite E. reflexivity. Qed.
  Lemma all_give s l s' a r : bytes_ok l -> step s l = Give s' a r -> all step s l = (a :: fst (all step s' r), snd (all step s' r)).
  Proof.
    intros B E. unfold all at 1. cbn [drain]. rewrite E. destruct (less _ _ _ _ _ B E) as [L Br].
    rewrite (drain_fuel r (length l) (Datatypes.S (length r)) s' Br) by lia. fold (all step s' r). destruct (all step s' r). reflexivity.
  Qed.
  (** Reading what has arrived, and then the rest, is reading all of it. *)
  Lemma all_more l : forall s x, bytes_ok (l ++ x) ->
    all step s (l ++ x) = match snd (all step s l) with
                          | Closed e => (fst (all step s l), Closed e)
                          | Open s' kept => (fst (all step s l) ++ fst (all step s' (kept ++ x)), snd (all step s' (kept ++ x)))
                          end.
  Proof.
    induction l as [l IH] using (induction_ltof1 _ (@length N)). unfold ltof in IH. intros s x B. pose proof B as B0. apply bytes_split in B0 as [Bl Bx].
    destruct (step s l) as [|s' a r|e] eqn:E.
    - rewrite (all_wait s l E). cbn [fst snd app]. destruct (all step s (l ++ x)); reflexivity.
    - destruct (less _ _ _ _ _ Bl E) as [L Br]. rewrite (all_give s l s' a r Bl E). cbn [fst snd].
      rewrite (all_give s (l ++ x) s' a (r ++ x) B (st_give _ ST _ _ _ _ _ x Bl E)). rewrite (IH r L s' x ltac:(apply bytes_split; auto)).
      destruct (snd (all step s' r)); reflexivity.
    - rewrite (all_stop s l e E). cbn [fst snd]. apply all_stop. apply (st_stop _ ST); assumption.
  Qed.
  Lemma open_kept l : forall s s' k, bytes_ok l -> snd (all step s l) = Open s' k -> bytes_ok k /\ step s' k = Wait.
  Proof.
    induction l as [l IH] using (induction_ltof1 _ (@length N)). unfold ltof in IH. intros s s' k B H. destruct (step s l) as [|s1 a r|e] eqn:E.
    - rewrite (all_wait s l E) in H. cbn in H. injection H as <- <-. auto.
    - destruct (less _ _ _ _ _ B E) as [L Br]. rewrite (all_give s l s1 a r B E) in H. exact (IH r L s1 s' k Br H).
    - rewrite (all_stop s l e E) in H. discriminate.
  Qed.
  Lemma feed_all ps : forall s kept, step s kept = Wait -> bytes_ok (kept ++ concat ps) -> feed step (Open s kept) ps = all step s (kept ++ concat ps).
  Proof.
    induction ps as [|p ps IH]; intros s kept W B; cbn [feed concat] in *.
    - rewrite app_nil_r. symmetry. apply all_wait, W.
    - rewrite app_assoc in *. rewrite (all_more (kept ++ p) s (concat ps) B). pose proof B as B0. apply bytes_split in B0 as [B1 B2].
      destruct (all step s (kept ++ p)) as [got st1] eqn:E. cbn [fst snd]. destruct st1 as [s' k'|e].
      + destruct (open_kept (kept ++ p) s s' k' B1) as [Bk Wk]; [rewrite E; reflexivity|]. rewrite (IH s' k' Wk) by (apply bytes_split; auto).
        destruct (all step s' (k' ++ concat ps)). reflexivity.
      + destruct ps; cbn; rewrite app_nil_r; reflexivity.
  Qed.
  Theorem packets_any s ps qs : bytes_ok (concat ps) -> concat ps = concat qs -> feed step (Open s []) ps = feed step (Open s []) qs.
  Proof. intros B E. rewrite !feed_all by (try apply (st_none _ ST); cbn [app]; congruence). cbn [app]. rewrite E. reflexivity. Qed.
  Lemma feed_prefix s ps qs : bytes_ok (concat (ps ++ qs)) -> exists more, fst (feed step (Open s []) (ps ++ qs)) = fst (feed step (Open s []) ps) ++ more.
  Proof.
    rewrite concat_app. intros B. pose proof B as B0. apply bytes_split in B0 as [B1 B2].
    rewrite !feed_all by (try apply (st_none _ ST); cbn [app]; rewrite ?concat_app; assumption). cbn [app]. rewrite concat_app, (all_more _ s _ B).
    destruct (snd (all step s (concat ps))); cbn [fst]; [eexists; reflexivity|exists []; rewrite app_nil_r; reflexivity].
  Qed.
End Steady.

(** ** HTTP/1 *)
Definition more {A} (x : bytes) (o : res (A * bytes)) : res (A * bytes) := match o with Ok (a, r) => Ok (a, r ++ x) | Err e => Err e | Panic => Panic | Diverge => Diverge end.
Lemma skip_app (w r : bytes) n : n <= blen w -> skipn (N.to_nat n) (w ++ r) = skipn (N.to_nat n) w ++ r.
Proof. intros H. rewrite skipn_app. replace (N.to_nat n - length w)%nat with 0%nat by (unfold blen in H; lia). reflexivity. Qed.
Lemma chunks_steady l : forall k k' x, (length l < k)%nat -> (length (l ++ x) < k')%nat -> read_chunks k l <> partial -> read_chunks k' (l ++ x) = more x (read_chunks k l).
Proof.
  induction l as [l IH] using (induction_ltof1 _ (@length N)). unfold ltof in IH. intros [|k] [|k'] x K K' H; try lia. cbn [read_chunks] in *.
  destruct (parse_chunk_data l) as [[off n]|e| |] eqn:E; cbn [bind] in H.
  - rewrite (chunk_stable l x) by (rewrite E; discriminate). rewrite E. cbn [bind].
    apply chunk_exact in E as (line & rest & -> & _ & -> & _ & L).
    assert (E1 : skipn (N.to_nat (blen line)) (line ++ rest) = rest).
    { unfold blen. rewrite Nnat.Nat2N.id, skipn_app, skipn_all, Nat.sub_diag. reflexivity. }
    assert (E2 : skipn (N.to_nat (blen line)) ((line ++ rest) ++ x) = rest ++ x).
    { rewrite <- app_assoc. unfold blen. rewrite Nnat.Nat2N.id, skipn_app, skipn_all, Nat.sub_diag. reflexivity. }
    rewrite E1 in *. rewrite E2. rewrite (skip_app rest x (n + 2)) by exact L.
    rewrite firstn_app. replace (N.to_nat n - length rest)%nat with 0%nat by (unfold blen in L; lia). cbn [firstn]. rewrite app_nil_r.
    destruct (n =? 0) eqn:Z; [reflexivity|].
    assert (LS : (length (skipn (N.to_nat (n + 2)) rest) + 2 <= length rest)%nat) by (rewrite skipn_length; unfold blen in L; lia).
    rewrite !app_length in *.
    rewrite (IH (skipn (N.to_nat (n + 2)) rest)) with (k := k).
    + destruct (read_chunks k (skipn (N.to_nat (n + 2)) rest)) as [[ds l3]|e| |]; reflexivity.
    + lia.
    + lia.
    + rewrite app_length. lia.
    + intros P. apply H. rewrite P. reflexivity.
  - rewrite (chunk_stable l x) by (rewrite E; intros P; apply H; injection P as ->; reflexivity). rewrite E. reflexivity.
  - rewrite (chunk_stable l x) by (rewrite E; discriminate). rewrite E. reflexivity.
  - rewrite (chunk_stable l x) by (rewrite E; discriminate). rewrite E. reflexivity.
Qed.
Lemma body_steady h l x : read_body h l <> partial -> read_body h (l ++ x) = more x (read_body h l).
Proof.
  unfold read_body. destruct (hm_is_chunked h).
  - intros H. rewrite (chunks_steady l (S (length l)) (S (length (l ++ x))) x ltac:(lia) ltac:(lia)) by (intros P; apply H; rewrite P; reflexivity).
    destruct (read_chunks (S (length l)) l) as [[cs r]|e| |]; reflexivity.
  - destruct (hm_body_len h) as [n|e| |]; cbn [bind]; try reflexivity. destruct (n <? 0)%Z; [reflexivity|]. destruct (take_N (Z.to_N n) l) as [[b r]|] eqn:T; intros H; [|congruence].
    apply take_N_some in T as [-> L]. rewrite <- app_assoc, take_N_app by exact L. reflexivity.
Qed.
Lemma chunks_suffix k : forall l ds r, read_chunks k l = Ok (ds, r) -> exists c, l = c ++ r.
Proof.
  induction k as [|k IH]; intros l ds r H; [discriminate|]. cbn [read_chunks] in H. destruct (parse_chunk_data l) as [[off n]|e| |]; try discriminate. cbn [bind] in H.
  assert (X : forall m p (y : bytes), exists c, y = c ++ skipn m (skipn p y)).
  { intros m p y. exists (firstn p y ++ firstn m (skipn p y)). rewrite <- app_assoc, !firstn_skipn. reflexivity. }
  destruct (X (N.to_nat (n + 2)) (N.to_nat off) l) as (c & E). destruct (n =? 0).
  - injection H as _ <-. exists c. exact E.
  - destruct (read_chunks k _) as [[ds' r']|e| |] eqn:R; try discriminate. cbn [bind] in H. injection H as _ <-. destruct (IH _ _ _ R) as (c' & E'). exists (c ++ c'). rewrite <- app_assoc, <- E'. exact E.
Qed.
Lemma body_suffix h l b r : read_body h l = Ok (b, r) -> exists c, l = c ++ r.
Proof.
  unfold read_body. destruct (hm_is_chunked h).
  - destruct (read_chunks (S (length l)) l) as [[cs r']|e| |] eqn:R; try discriminate. cbn [bind]. intros H. injection H as _ <-. exact (chunks_suffix _ _ _ _ R).
  - destruct (hm_body_len h) as [n|e| |]; cbn [bind]; try discriminate. destruct (n <? 0)%Z; [discriminate|]. destruct (take_N (Z.to_N n) l) as [[b' r']|] eqn:T; [|discriminate].
    intros H. injection H as _ <-. apply take_N_some in T as [-> _]. eauto.
Qed.
(** What is asked of the reader of heads. *)
Record head_steady {A} (parse : bytes -> res (A * N)) : Prop := mkHead {
  hs_stays : forall l x, parse l <> partial -> parse (l ++ x) = parse l;
  hs_some : forall l a n, bytes_ok l -> parse l = Ok (a, n) -> 0 < n <= blen l;
  hs_none : parse [] = partial }.
Lemma message_more {A} (parse : bytes -> res (A * N)) header l x : head_steady parse -> bytes_ok l -> read_message parse header l <> partial ->
  read_message parse header (l ++ x) = more x (read_message parse header l).
Proof.
  intros HS B H. unfold read_message in *. destruct (parse l) as [[a n]|e| |] eqn:E; cbn [bind] in H.
  - rewrite (hs_stays _ HS l x) by (rewrite E; discriminate). rewrite E. cbn [bind]. destruct (hs_some _ HS _ _ _ B E) as [_ L]. rewrite (skip_app l x n L).
    rewrite body_steady by (intros P; apply H; rewrite P; reflexivity). destruct (read_body (header a) (skipn (N.to_nat n) l)) as [[b r]|e| |]; reflexivity.
  - rewrite (hs_stays _ HS l x) by (rewrite E; intros P; apply H; injection P as ->; reflexivity). rewrite E. reflexivity.
  - rewrite (hs_stays _ HS l x) by (rewrite E; discriminate). rewrite E. reflexivity.
  - rewrite (hs_stays _ HS l x) by (rewrite E; discriminate). rewrite E. reflexivity.
Qed.
Lemma step_cases {A} (parse : bytes -> res (A * N)) header s l :
  (read_message parse header l = partial /\ message_step parse header s l = Wait) \/
  (read_message parse header l <> partial /\ message_step parse header s l =
     match read_message parse header l with Ok (a, b, r) => Give tt (a, b) r | Err e => Stop (Err e) | Panic => Stop Panic | Diverge => Stop Diverge end).
Proof.
  unfold message_step. destruct (read_message parse header l) as [[[a b] r]|e| |]; try (right; split; [discriminate|reflexivity]).
  destruct e as [h| | | | | | | ]; try (right; split; [discriminate|reflexivity]). destruct h; try (right; split; [discriminate|reflexivity]). left. split; reflexivity.
Qed.
Lemma message_steady {A} (parse : bytes -> res (A * N)) header : head_steady parse -> steady (message_step parse header).
Proof.
  intros HS. constructor.
  - intros s l s' a r B E. destruct (step_cases parse header s l) as [[_ K]|[N K]]; rewrite K in E; [discriminate|].
    destruct (read_message parse header l) as [[[a' b'] r']|e| |] eqn:R; try discriminate. injection E as <- <- <-. unfold read_message in R.
    destruct (parse l) as [[a1 n]|e| |] eqn:P; try discriminate. cbn [bind] in R. destruct (hs_some _ HS _ _ _ B P) as [Ln Lb].
    destruct (read_body (header a1) (skipn (N.to_nat n) l)) as [[b1 r1]|e| |] eqn:RB; try discriminate. cbn [bind] in R. injection R as _ _ <-.
    apply body_suffix in RB as (c & C). exists (firstn (N.to_nat n) l ++ c). split; [|rewrite <- app_assoc, <- C, firstn_skipn; reflexivity].
    destruct l as [|y l]; [change (blen []) with 0 in Lb; lia|]. destruct (N.to_nat n) eqn:Z; [lia|]. discriminate.
  - intros s l s' a r x B E. destruct (step_cases parse header s l) as [[_ K]|[N K]]; rewrite K in E; [discriminate|].
    pose proof (message_more parse header l x HS B N) as M. destruct (read_message parse header l) as [[[a' b'] r']|e| |] eqn:R; try discriminate. injection E as <- <- <-.
    unfold message_step. rewrite M. reflexivity.
  - intros s l e x B E. apply bytes_split in B as [B _]. destruct (step_cases parse header s l) as [[_ K]|[N K]]; rewrite K in E; [discriminate|].
    pose proof (message_more parse header l x HS B N) as M.
    destruct (step_cases parse header s (l ++ x)) as [[K1 _]|[_ K1]].
    + exfalso. rewrite M in K1. destruct (read_message parse header l) as [[[a' b'] r']|e'| |]; cbn in K1; try discriminate. injection K1 as ->. apply N. reflexivity.
    + rewrite K1, M. destruct (read_message parse header l) as [[[a' b'] r']|e'| |]; cbn; try discriminate; assumption.
  - intros s. unfold message_step, read_message. rewrite (hs_none _ HS). reflexivity.
Qed.
Lemma request_head : head_steady parse_request.
Proof.
  assert (N0 : parse_request [] = partial) by (vm_compute; reflexivity).
  constructor; [| |exact N0].
  - intros l x H. unfold parse_request in *. assert (snd (req_parse req_default l) <> partial) as K.
    { intros K. apply H. destruct (req_parse req_default l) as [q r]. cbn in K. subst r. reflexivity. }
    rewrite (P_Msg.request_stable _ l x K). reflexivity.
  - intros l a n B E. unfold parse_request in E. destruct (req_parse req_default l) as [q r] eqn:R. destruct r as [m|e| |]; try discriminate. cbn in E. injection E as <- <-.
    destruct (req_tail req_default l q m [] B R) as [L T]. split; [|exact L]. destruct (N.eq_dec m 0) as [->|]; [|lia]. exfalso. change (firstn (N.to_nat 0) l ++ []) with (@nil N) in T.
    unfold parse_request in N0. rewrite T in N0. discriminate.
Qed.
Lemma response_head : head_steady parse_response.
Proof.
  assert (N0 : parse_response [] = partial) by (vm_compute; reflexivity).
  constructor; [| |exact N0].
  - intros l x H. unfold parse_response in *. assert (snd (resp_parse resp_default l) <> partial) as K.
    { intros K. apply H. destruct (resp_parse resp_default l) as [q r]. cbn in K. subst r. reflexivity. }
    rewrite (P_Msg.response_stable _ l x K). reflexivity.
  - intros l a n B E. unfold parse_response in E. destruct (resp_parse resp_default l) as [q r] eqn:R. destruct r as [m|e| |]; try discriminate. cbn in E. injection E as <- <-.
    destruct (resp_tail resp_default l q m [] B R) as [L T]. split; [|exact L]. destruct (N.eq_dec m 0) as [->|]; [|lia]. exfalso. change (firstn (N.to_nat 0) l ++ []) with (@nil N) in T.
    unfold parse_response in N0. rewrite T in N0. discriminate.
Qed.

(** ** WebSocket *)
Definition read_limited (limit : option N) (l : bytes) : res (dataframe * bytes) := match limit with Some n => read_dataframe_with_limit n l | None => read_dataframe l end.
Lemma limited_ok limit l d r : read_limited limit l = Ok (d, r) <-> read_dataframe l = Ok (d, r) /\ match limit with Some n => blen (d_data d) <= n | None => True end.
Proof. destruct limit; cbn; [apply read_limit_ok|tauto]. Qed.
Lemma limited_err limit l e : bytes_ok l -> read_limited limit l = Err e <-> frame_bad limit l e.
Proof. intros B. exact (frame_bad_iff limit l e B). Qed.
Lemma frame_cases4 limit s l :
  (read_limited limit l = Err more_data /\ frame_step limit s l = Wait) \/
  (read_limited limit l <> Err more_data /\ frame_step limit s l =
     match read_limited limit l with Ok (d, r) => Give tt d r | Err e => Stop (Err e) | Panic => Stop Panic | Diverge => Stop Diverge end).
Proof.
  unfold frame_step. fold (read_limited limit l). destruct (read_limited limit l) as [[d r]|e| |]; try (right; split; [discriminate|reflexivity]).
  destruct e as [ | | | | | | |k]; try (right; split; [discriminate|reflexivity]). destruct k; try (right; split; [discriminate|reflexivity]). left. split; reflexivity.
Qed.
Lemma limited_total limit l : (exists d r, read_limited limit l = Ok (d, r)) \/ exists e, read_limited limit l = Err e.
Proof. destruct limit; [apply read_limit_total|apply read_dataframe_total]. Qed.
Lemma frame_steady limit : steady (frame_step limit).
Proof.
  constructor.
  - intros s l s' a r B E. destruct (frame_cases4 limit s l) as [[_ K]|[_ K]]; rewrite K in E; [discriminate|].
    destruct (read_limited limit l) as [[d r']|e| |] eqn:R; try discriminate. injection E as <- <- <-. apply limited_ok in R as [R _].
    destruct (read_dataframe_inv l d r' B R) as (key & -> & _). eexists. split; [|reflexivity]. discriminate.
  - intros s l s' a r x B E. destruct (frame_cases4 limit s l) as [[_ K]|[_ K]]; rewrite K in E; [discriminate|].
    destruct (read_limited limit l) as [[d r']|e| |] eqn:R; try discriminate. injection E as <- <- <-. apply limited_ok in R as [R L].
    assert (R' : read_limited limit (l ++ x) = Ok (d, r' ++ x)) by (apply limited_ok; split; [apply read_dataframe_ext; assumption|exact L]).
    unfold frame_step. fold (read_limited limit (l ++ x)). rewrite R'. reflexivity.
  - intros s l e x B E. pose proof B as B0. apply bytes_split in B0 as [Bl _]. destruct (frame_cases4 limit s l) as [[_ K]|[N K]]; rewrite K in E; [discriminate|].
    destruct (limited_total limit l) as [(d & r & R)|(e' & R)]; rewrite R in E, N; [discriminate|].
    assert (R' : read_limited limit (l ++ x) = Err e').
    { apply limited_err; [exact B|]. apply frame_bad_final; [apply limited_err; assumption|congruence]. }
    destruct (frame_cases4 limit s (l ++ x)) as [[K1 _]|[_ K1]]; [congruence|]. rewrite K1, R'. exact E.
  - intros s. destruct limit; reflexivity.
Qed.

(** ** HTTP/2 *)
Lemma header_err l e x : 9 <= blen l -> fh_parse l = Err e -> fh_parse (l ++ x) = Err e.
Proof.
  intros L. unfold fh_parse. change FRAME_HEADER_BYTES with 9. rewrite blen_app. replace (blen l <? 9) with false by lia. replace (blen l + blen x <? 9) with false by lia.
  do 9 (destruct l as [|?b l]; [unfold blen in L; cbn in L; lia|]). cbn. destruct (flag_new _); [discriminate|]. auto.
Qed.
Lemma header_total l : fh_parse l <> Panic /\ fh_parse l <> Diverge.
Proof.
  unfold fh_parse. change FRAME_HEADER_BYTES with 9. destruct (N.ltb_spec (blen l) 9) as [K|K]; [split; discriminate|].
  do 9 (destruct l as [|?b l]; [unfold blen in K; cbn in K; lia|]). cbn. destruct (flag_new _); split; discriminate.
Qed.
(** A complete frame: its header and payload, or a header that is refused. *)
Lemma complete_cases l : complete_frame l = true ->
  (exists c h p r, l = c ++ p ++ r /\ length c = 9%nat /\ (forall x, fh_parse (c ++ x) = Ok (h, x)) /\ blen p = fh_length h) \/
  (9 <= blen l /\ exists e, fh_parse l = Err e).
Proof.
  unfold complete_frame. destruct (N.ltb_spec (blen l) 9) as [K|K]; [discriminate|]. intros H.
  destruct (fh_parse l) as [[h r]|e| |] eqn:E; [|right; eauto|destruct (header_total l); congruence|destruct (header_total l); congruence].
  destruct (take_N (fh_length h) r) as [[p r']|] eqn:T; [|discriminate]. left. apply take_N_some in T as [-> L].
  destruct (fh_parse_split l h (p ++ r') E) as (c & -> & C & F). exists c, h, p, r'. auto.
Qed.
Lemma complete_given c h p r t L : length c = 9%nat -> (forall x, fh_parse (c ++ x) = Ok (h, x)) -> blen p = fh_length h ->
  complete_frame (c ++ p ++ r) = true /\
  recv t L (c ++ p ++ r) = match frame_parse t h p L with (t', Ok f) => (t', Ok (f, r)) | (t', Err e) => (t', Err e) | (t', Panic) => (t', Panic) | (t', Diverge) => (t', Diverge) end.
Proof.
  intros C F P. unfold complete_frame, recv. rewrite F, (take_N_app _ p r P). split; [|reflexivity].
  rewrite blen_app. replace (blen c) with 9 by (unfold blen; rewrite C; reflexivity). replace (9 + blen (p ++ r) <? 9) with false by lia. reflexivity.
Qed.
Lemma h2_steady L : steady (h2_step L).
Proof.
  assert (Bad : forall t l x e, 9 <= blen l -> fh_parse l = Err e -> h2_step L t (l ++ x) = Stop (Err e)).
  { intros t l x e K E. pose proof (header_err l e x K E) as E'. unfold h2_step, complete_frame, recv. rewrite E'. rewrite blen_app. replace (blen l + blen x <? 9) with false by lia. reflexivity. }
  constructor.
  - intros t l t' f r B E. unfold h2_step in E. destruct (complete_frame l) eqn:C; [|discriminate]. destruct (complete_cases l C) as [(c & h & p & r' & -> & Lc & F & P)|(K & e & K')].
    + destruct (complete_given c h p r' t L Lc F P) as [_ R]. rewrite R in E. destruct (frame_parse t h p L) as [t1 [f1|e| |]]; try discriminate. injection E as <- <- <-.
      exists (c ++ p). split; [destruct c; [discriminate|discriminate]|]. rewrite <- app_assoc. reflexivity.
    + unfold recv in E. rewrite K' in E. discriminate.
  - intros t l t' f r x B E. unfold h2_step in E. destruct (complete_frame l) eqn:C; [|discriminate]. destruct (complete_cases l C) as [(c & h & p & r' & -> & Lc & F & P)|(K & e & K')].
    + destruct (complete_given c h p r' t L Lc F P) as [_ R]. rewrite R in E. rewrite <- !app_assoc. destruct (complete_given c h p (r' ++ x) t L Lc F P) as [C2 R2]. unfold h2_step. rewrite C2, R2.
      destruct (frame_parse t h p L) as [t1 [f1|e| |]]; try discriminate. injection E as <- <- <-. reflexivity.
    + unfold recv in E. rewrite K' in E. discriminate.
  - intros t l e x B E. pose proof E as E0. unfold h2_step in E. destruct (complete_frame l) eqn:C; [|discriminate]. destruct (complete_cases l C) as [(c & h & p & r' & -> & Lc & F & P)|(K & e' & K')].
    + destruct (complete_given c h p r' t L Lc F P) as [_ R]. rewrite R in E. rewrite <- !app_assoc. destruct (complete_given c h p (r' ++ x) t L Lc F P) as [C2 R2]. unfold h2_step. rewrite C2, R2.
      destruct (frame_parse t h p L) as [t1 [f1|e1| |]]; try discriminate; exact E.
    + unfold recv in E. rewrite K' in E. injection E as <-. apply Bad; assumption.
  - intros t. reflexivity.
Qed.
