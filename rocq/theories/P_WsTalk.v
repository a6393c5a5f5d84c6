(** Lemmas on whole WebSocket connections. *)
From Coq Require Import NArith ZArith Lia Bool List ZifyBool ZifyNat ZifyN.
From Verif Require Import Base P_Base S_Utf8 M_Ws S_Ws S_WsApi S_WsTalk P_Ws.
Import ListNotations.
Local Open Scope N_scope.
Ltac Zify.zify_post_hook ::= Z.div_mod_to_equations.

Lemma opcode_new_u8 o : opcode_new (opcode_u8 o) = Some o.
Proof. destruct o; reflexivity. Qed.
Lemma be_dec2 a b : be_dec [a; b] = a * 256 + b.
Proof. unfold be_dec. cbn [be_dec_acc]. lia. Qed.
Lemma build_owned o data m : (m' <- build_message (Some o) data ;; Ok (owned_of_message m')) = Ok m <-> says o data m.
Proof.
  split.
  - intros H. apply bind_ok in H as (m' & H & E). injection E as <-.
    apply build_message_inv in H as [(H & U & ->)|[(H & ->)|[(H & ->)|[(H & ->)|[(H & -> & ->)|(H & a & b & r & -> & U & ->)]]]]]; injection H as ->;
      cbn [owned_of_message msg_text msg_binary msg_ping msg_pong msg_close msg_close_because m_op m_code m_payload];
      rewrite ?(utf8_lossy_valid _ U); try constructor.
    + apply utf8_valid_iff, U.
    + apply utf8_valid_iff, U.
  - intros H. destruct H; cbn [build_message]; try reflexivity.
    + apply utf8_valid_iff in H. rewrite H. cbn. rewrite utf8_lossy_valid by exact H. reflexivity.
    + apply utf8_valid_iff in H. change (try_get 2 (a :: b :: r)) with (Ok (be_dec [a; b], r)). cbn [bind]. rewrite be_dec2, H. cbn. rewrite utf8_lossy_valid by exact H. reflexivity.
Qed.
(** The frames kept so far, abstractly. *)
Definition kept (pending : list dataframe) (st : option (opcode * bytes)) : Prop :=
  match st with
  | None => pending = []
  | Some (o, acc) => exists d ds, pending = d :: ds /\ d_op d = o /\ ~ is_control o /\
      Forall (fun d => d_rsv d = (false, false, false)) pending /\ Forall (fun d => d_op d = Continuation) ds /\ concat (map d_data pending) = acc
  end.
Lemma op_zero d : df_opcode (dataframe_df d) = 0 <-> d_op d = Continuation.
Proof. cbn. split; [destruct (d_op d); cbn; intros; (reflexivity || discriminate)|intros ->; reflexivity]. Qed.
Lemma take_data ds : map df_take (map dataframe_df ds) = map d_data ds.
Proof. rewrite map_map. apply map_ext. reflexivity. Qed.
Lemma owned_exact ds m : owned_from_dataframes (map dataframe_df ds) = Ok m <->
  exists d r, ds = d :: r /\ Forall (fun d => d_rsv d = (false, false, false)) ds /\ Forall (fun d => d_op d = Continuation) r /\
    says (d_op d) (concat (map d_data ds)) m.
Proof.
  unfold owned_from_dataframes. split.
  - intros H. apply bind_ok in H as (m' & H & E). pose proof H as K. apply msg_from_frames_inv in K as (x & rest & Q & R & O & B).
    destruct ds as [|d r]; [discriminate Q|]. cbn [map] in Q. injection Q as <- <-. exists d, r. split; [reflexivity|].
    split; [|split].
    + exact (proj1 (Forall_map _ _ _) R).
    + apply (proj1 (Forall_map _ _ _)) in O. eapply Forall_impl; [|exact O]. intros y. apply op_zero.
    + apply build_owned. rewrite <- take_data. change (df_opcode (dataframe_df d)) with (opcode_u8 (d_op d)) in B. rewrite opcode_new_u8 in B.
      cbn [map] in B |- *. rewrite B. exact E.
  - intros (d & r & -> & R & O & S). apply build_owned in S. inversion R as [|? ? R1 R2]; subst. cbn [map].
    rewrite msg_from_frames_spec; [|exact R1|apply (proj2 (Forall_map _ _ _)); exact R2|].
    + change (df_opcode (dataframe_df d)) with (opcode_u8 (d_op d)). rewrite opcode_new_u8. rewrite take_data. exact S.
    + apply (proj2 (Forall_map _ _ _)). eapply Forall_impl; [|exact O]. intros y. apply op_zero.
Qed.
Lemma frame_plain d : d_rsv d = (false, false, false) -> d = plain_frame (d_fin d) (d_op d) (d_data d).
Proof. destruct d as [f r o p]. cbn. intros ->. reflexivity. Qed.
Lemma not_control o : ~ is_control o <-> (8 <=? opcode_u8 o) = false.
Proof. unfold is_control. rewrite N.leb_gt. lia. Qed.

(** The reader on frames that have been read. *)
Fixpoint ws_frames (pending : list dataframe) (ds : list dataframe) : res (list owned * list dataframe) :=
  match ds with
  | [] => Ok ([], pending)
  | d :: ds' =>
    ' (m, pending1) <- ws_take pending d ;;
    ' (ms, pending2) <- ws_frames pending1 ds' ;;
    Ok (m ++ ms, pending2)
  end.
Lemma talk_receive ds : forall st ms pending, talk st ds ms -> kept pending st -> ws_frames pending ds = Ok (ms, []).
Proof.
  induction ds as [|d ds IH]; intros st ms pending T K; inversion T; subst; cbn [ws_frames].
  - cbn in K. rewrite K. reflexivity.
  - unfold ws_take. cbn [plain_frame d_op]. replace (8 <=? opcode_u8 o) with true by (symmetry; apply N.leb_le; assumption).
    replace (owned_from_dataframes [dataframe_df (plain_frame true o p)]) with (Ok m).
    + cbn [bind]. rewrite (IH st ms0 pending) by assumption. reflexivity.
    + symmetry. apply (owned_exact [plain_frame true o p]). exists (plain_frame true o p), []. split; [reflexivity|]. split; [repeat constructor|].
      split; [constructor|]. cbn [plain_frame d_op map d_data concat]. rewrite app_nil_r. assumption.
  - cbn in K. subst pending. unfold ws_take. cbn [plain_frame d_op d_fin app]. rewrite (proj1 (not_control o)) by assumption.
    replace (owned_from_dataframes _) with (Ok m).
    + cbn [bind]. rewrite (IH None ms0 []) by (assumption || reflexivity). reflexivity.
    + symmetry. apply (owned_exact [plain_frame true o p]). exists (plain_frame true o p), []. split; [reflexivity|]. split; [repeat constructor|].
      split; [constructor|]. cbn [plain_frame d_op map d_data concat]. rewrite app_nil_r. assumption.
  - cbn in K. subst pending. unfold ws_take. cbn [plain_frame d_op d_fin app]. rewrite (proj1 (not_control o)) by assumption. cbn [bind].
    rewrite (IH (Some (o, p)) ms [plain_frame false o p]); [reflexivity|assumption|].
    exists (plain_frame false o p), []. cbn. rewrite app_nil_r. repeat split; repeat constructor. assumption.
  - destruct K as (d0 & r & -> & O & N & R & C & D). unfold ws_take. cbn [plain_frame d_op d_fin]. change (8 <=? opcode_u8 Continuation) with false. cbv iota. cbn [bind].
    rewrite (IH (Some (o, acc ++ p)) ms ((d0 :: r) ++ [plain_frame false Continuation p])); [reflexivity|assumption|].
    exists d0, (r ++ [plain_frame false Continuation p]). split; [reflexivity|]. split; [exact O|]. split; [exact N|].
    split; [apply Forall_app; split; [exact R|repeat constructor]|]. split; [apply Forall_app; split; [exact C|repeat constructor]|].
    rewrite map_app, concat_app, D. cbn. rewrite app_nil_r. reflexivity.
  - destruct K as (d0 & r & -> & O & N & R & C & D). unfold ws_take. cbn [plain_frame d_op d_fin]. change (8 <=? opcode_u8 Continuation) with false. cbv iota.
    replace (owned_from_dataframes _) with (Ok m).
    + cbn [bind]. rewrite (IH None ms0 []) by (assumption || reflexivity). reflexivity.
    + symmetry. apply owned_exact. exists d0, (r ++ [plain_frame true Continuation p]). split; [reflexivity|].
      split; [apply Forall_app; split; [exact R|repeat constructor]|]. split; [apply Forall_app; split; [exact C|repeat constructor]|].
      rewrite map_app, concat_app, D, O. cbn [map concat plain_frame d_data]. rewrite app_nil_r. assumption.
Qed.
Lemma receive_talk ds : forall pending ms, Forall (fun d => 8 <= opcode_u8 (d_op d) -> d_fin d = true) ds ->
  Forall (fun d => ~ is_control (d_op d)) pending ->
  ws_frames pending ds = Ok (ms, []) -> exists st, kept pending st /\ talk st ds ms.
Proof.
  induction ds as [|d ds IH]; intros pending ms F P H; cbn [ws_frames] in H.
  - injection H as <- ->. exists None. split; [reflexivity|constructor].
  - inversion F as [|? ? F1 F2]; subst. apply bind_ok in H as ([m p1] & T & H). apply bind_ok in H as ([ms' p2] & R & H). injection H as <- ->.
    unfold ws_take in T. destruct (8 <=? opcode_u8 (d_op d)) eqn:C.
    + apply bind_ok in T as (x & T & E). injection E as <- <-. apply (owned_exact [d]) in T as (d' & r & Q & RS & _ & S). injection Q as <- <-.
      destruct (IH _ _ F2 P R) as (st & K & TK). exists st. split; [exact K|]. inversion RS as [|? ? RS1 _]; subst. rewrite (frame_plain d RS1), F1 by lia.
      cbn [map concat] in S. rewrite app_nil_r in S. apply tk_control; [unfold is_control; lia|exact S|exact TK].
    + destruct (d_fin d) eqn:FN.
      * apply bind_ok in T as (x & T & E). injection E as <- <-. destruct (IH _ _ F2 (Forall_nil _) R) as (st & K & TK).
        assert (st = None) as ->. { destruct st as [[o acc]|]; [|reflexivity]. destruct K as (? & ? & K & _). discriminate K. }
        apply owned_exact in T as (d0 & r & Q & RS & CO & S). apply Forall_app in RS as [RS1 RS2]. inversion RS2 as [|? ? RS3 _]; subst.
        destruct pending as [|d1 pending]; cbn [app] in Q; injection Q as <- <-.
        -- exists None. split; [reflexivity|]. rewrite (frame_plain d RS3), FN. cbn [app map concat] in S. rewrite app_nil_r in S.
           apply tk_whole; [apply not_control, C|exact S|exact TK].
        -- apply Forall_app in CO as [CO1 CO2]. inversion CO2 as [|? ? CO3 _]; subst. inversion P as [|? ? P1 _]; subst.
           rewrite map_app, concat_app in S. cbn [map concat] in S. rewrite app_nil_r in S.
           exists (Some (d_op d1, concat (map d_data (d1 :: pending)))). split.
           { exists d1, pending. repeat (split; [first [reflexivity|assumption]|]). reflexivity. }
           rewrite (frame_plain d RS3), FN, CO3. apply tk_last; assumption.
      * injection T as <- <-.
        assert (P' : Forall (fun d => ~ is_control (d_op d)) (pending ++ [d])).
        { apply Forall_app. split; [exact P|]. constructor; [apply not_control, C|constructor]. }
        destruct (IH _ _ F2 P' R) as (st & K & TK). destruct st as [[o acc]|]; [|destruct pending; discriminate K].
        destruct K as (d0 & r & Q & O & NC & RS & CO & D). apply Forall_app in RS as [RS1 RS2]. inversion RS2 as [|? ? RS3 _]; subst.
        destruct pending as [|d1 pending]; cbn [app] in Q; injection Q as <- <-.
        -- exists None. split; [reflexivity|]. rewrite (frame_plain d RS3), FN. cbn [app map concat] in TK. rewrite app_nil_r in TK.
           apply tk_first; assumption.
        -- apply Forall_app in CO as [CO1 CO2]. inversion CO2 as [|? ? CO3 _]; subst.
           rewrite map_app, concat_app in TK. cbn [map concat] in TK. rewrite app_nil_r in TK.
           exists (Some (d_op d1, concat (map d_data (d1 :: pending)))). split.
           { exists d1, pending. repeat (split; [first [reflexivity|assumption]|]). reflexivity. }
           rewrite (frame_plain d RS3), FN, CO3. apply tk_middle. exact TK.
Qed.
Lemma receive_frames k : forall pending l ms p r, ws_receive k pending l = Ok (ms, p, r) <->
  exists ds, read_frames k l = Ok (ds, r) /\ ws_frames pending ds = Ok (ms, p).
Proof.
  induction k as [|k IH]; intros pending l ms p r; cbn [ws_receive read_frames].
  - split.
    + intros H. injection H as <- <- <-. exists []. split; reflexivity.
    + intros (ds & H & K). injection H as <- <-. cbn in K. injection K as <- <-. reflexivity.
  - split.
    + intros H. apply bind_ok in H as ([d l1] & R & H). apply bind_ok in H as ([m p1] & T & H). apply bind_ok in H as ([[ms' p2] l2] & W & H).
      injection H as <- <- <-. apply IH in W as (ds & W1 & W2). exists (d :: ds). rewrite R. cbn [bind]. rewrite W1. split; [reflexivity|].
      cbn [ws_frames]. rewrite T. cbn [bind]. rewrite W2. reflexivity.
    + intros (ds & H & K). apply bind_ok in H as ([d l1] & R & H). apply bind_ok in H as ([ds' l2] & W & H). injection H as <- <-.
      cbn [ws_frames] in K. apply bind_ok in K as ([m p1] & T & K). apply bind_ok in K as ([ms' p2] & W2 & K). injection K as <- <-.
      rewrite R. cbn [bind]. rewrite T. cbn [bind].
      rewrite (proj2 (IH p1 l1 ms' p2 l2)); [reflexivity|]. exists ds'. auto.
Qed.

Lemma read_frames_fin k : forall l ds r, bytes_ok l -> read_frames k l = Ok (ds, r) -> Forall (fun d => 8 <= opcode_u8 (d_op d) -> d_fin d = true) ds.
Proof.
  induction k as [|k IH]; intros l ds r B H; cbn [read_frames] in H.
  - injection H as <- _. constructor.
  - apply bind_ok in H as ([d l1] & R & H). apply bind_ok in H as ([ds' l2] & W & H). injection H as <- _.
    apply (read_dataframe_inv _ _ _ B) in R as (key & E & C & _). constructor; [intros K; apply (C K)|]. eapply IH; [|exact W].
    rewrite E in B. apply Forall_app in B as [_ B]. exact B.
Qed.
Lemma receive_exact k l ms r : bytes_ok l -> (ws_receive k [] l = Ok (ms, [], r) <-> exists ds, read_frames k l = Ok (ds, r) /\ talk None ds ms).
Proof.
  intros B. rewrite receive_frames. split; intros (ds & R & H); exists ds; (split; [exact R|]).
  - destruct (receive_talk ds [] ms (read_frames_fin _ _ _ _ B R) (Forall_nil _) H) as (st & K & T).
    destruct st as [[o acc]|]; [destruct K as (? & ? & K & _); discriminate K|exact T].
  - exact (talk_receive ds None ms [] H eq_refl).
Qed.
Lemma talk_written ds keys ms rest : talk None ds ms -> Forall frame_ok ds -> length keys = length ds ->
  exists w, write_frames (combine ds keys) = Ok w /\ ws_receive (length ds) [] (w ++ rest) = Ok (ms, [], rest).
Proof.
  intros T F L. destruct (frames_roundtrip (combine ds keys) rest) as (w & W & R).
  { clear T. revert keys L. induction F as [|d ds Fd _ IH]; intros [|k keys] L; cbn [combine]; try constructor; [exact Fd|].
    apply IH. cbn in L. congruence. }
  exists w. split; [exact W|]. apply receive_frames. exists ds. rewrite combine_length, L, Nat.min_id in R.
  replace (map fst (combine ds keys)) with ds in R.
  - split; [exact R|]. exact (talk_receive ds None ms [] T eq_refl).
  - clear - L. revert keys L. induction ds as [|d ds IH]; intros [|k keys] L; cbn in *; try discriminate; [reflexivity|]. f_equal. apply IH. congruence.
Qed.
Lemma app_prefix2 {A} (a b p s : list A) : a ++ b = p ++ s -> s <> [] ->
  (exists t, a = p ++ t /\ t <> []) \/ exists t, p = a ++ t /\ b = t ++ s.
Proof.
  revert p. induction a as [|x a IH]; intros p E N.
  - right. exists p. split; [reflexivity|exact E].
  - destruct p as [|y p]; [left; exists (x :: a); split; [reflexivity|discriminate]|].
    cbn [app] in E. injection E as <- E. destruct (IH p E N) as [(t & -> & T)|(t & -> & T)]; [left|right]; exists t; split; auto.
Qed.
Lemma frames_prefix fs : forall w p s, Forall (fun x => frame_ok (fst x)) fs -> write_frames fs = Ok w -> w = p ++ s -> s <> [] ->
  exists k r, (k < length fs)%nat /\ read_frames k p = Ok (firstn k (map fst fs), r) /\ read_dataframe r = Err (EIo UnexpectedEof).
Proof.
  induction fs as [|[d k] fs IH]; intros w p s F W E N; cbn [write_frames] in W.
  - injection W as <-. symmetry in E. apply app_eq_nil in E as [_ E]. contradiction.
  - inversion F as [|? ? F1 F2]; subst. cbn [fst] in F1. apply bind_ok in W as (w1 & W1 & W). apply bind_ok in W as (w2 & W2 & W). injection W as W.
    apply app_prefix2 in W; [|exact N]. destruct W as [(t & E & T)|(t & -> & E)].
    + exists O, p. split; [cbn; lia|]. split; [reflexivity|]. exact (dataframe_prefix d k w1 p t F1 W1 E T).
    + destruct (IH w2 t s F2 W2 E N) as (j & r & J & R & Q). exists (S j), r. split; [cbn; lia|]. split; [|exact Q].
      destruct (dataframe_roundtrip d k t F1) as (w1' & W1' & _ & RT & _). rewrite W1 in W1'. injection W1' as <-.
      cbn [read_frames map fst firstn]. rewrite RT. cbn [bind]. rewrite R. reflexivity.
Qed.
Lemma ws_frames_firstn ds : forall pending ms p j, ws_frames pending ds = Ok (ms, p) ->
  exists ms1 ms2 p1, ws_frames pending (firstn j ds) = Ok (ms1, p1) /\ ms = ms1 ++ ms2.
Proof.
  induction ds as [|d ds IH]; intros pending ms p [|j] H; cbn [firstn ws_frames] in *.
  - injection H as <- _. exists [], [], pending. split; reflexivity.
  - injection H as <- _. exists [], [], pending. split; reflexivity.
  - exists [], ms, pending. split; reflexivity.
  - apply bind_ok in H as ([m p1] & T & H). apply bind_ok in H as ([ms' p2] & W & H). injection H as <- <-.
    destruct (IH _ _ _ j W) as (a & b & p3 & E & ->). exists (m ++ a), b, p3. rewrite T. cbn [bind]. rewrite E. split; [reflexivity|]. rewrite app_assoc. reflexivity.
Qed.
Lemma talk_truncated ds keys ms w p s : talk None ds ms -> Forall frame_ok ds -> length keys = length ds ->
  write_frames (combine ds keys) = Ok w -> w = p ++ s -> s <> [] ->
  exists k ms1 ms2 pending r, (k < length ds)%nat /\ ws_receive k [] p = Ok (ms1, pending, r) /\ ms = ms1 ++ ms2 /\ read_dataframe r = Err (EIo UnexpectedEof).
Proof.
  intros T F L W E N. destruct (frames_prefix (combine ds keys) w p s) as (k & r & K & R & Q); try assumption.
  { clear - F L. revert keys L. induction F as [|d ds Fd _ IH]; intros [|k keys] L; cbn [combine]; try constructor; [exact Fd|].
    apply IH. cbn in L. congruence. }
  replace (map fst (combine ds keys)) with ds in R.
  2:{ clear - L. revert keys L. induction ds as [|d ds IH]; intros [|k keys] L; cbn in *; try discriminate; [reflexivity|]. f_equal. apply IH. congruence. }
  destruct (ws_frames_firstn ds [] ms [] k (talk_receive ds None ms [] T eq_refl)) as (ms1 & ms2 & pend & H & ->).
  exists k, ms1, ms2, pend, r. rewrite combine_length, L, Nat.min_id in K. split; [exact K|]. split; [|split; [reflexivity|exact Q]].
  apply receive_frames. exists (firstn k ds). split; assumption.
Qed.
