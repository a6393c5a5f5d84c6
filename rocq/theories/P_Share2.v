(** Lemmas about threads that share a compression table: calls that nobody interrupts, and the peer. *)
From Coq Require Import Ascii String NArith ZArith Lia Bool List ZifyBool ZifyNat ZifyN.
From Verif Require Import Base S_Utf8 P_Base M_Std M_Helper M_Header M_Huffman M_Hpack.
From Verif Require Import S_Http1 S_Map P_Map S_Huffman S_Hpack S_HpackApi S_Near P_Huffman P_Hpack P_HpackTable P_HpackCodec P_HpackSync.
From Verif Require Import M_Share S_Share P_Share.
Import ListNotations.
Local Open Scope N_scope.

(** ** One thread running alone *)
Definition at_thread (i : nat) (ths : list (prog * list answer)) (t : hindex) (r : N) (w : bool) (p : prog) (o : list answer) : sys :=
  mkSys t r w false (set_nth i (p, o) ths).
Definition alone (i : nat) (s s' : sys) : Prop := exists n, run (repeat i n) s = s'.

Lemma alone_refl i s : alone i s s.
Proof. exists 0%nat. reflexivity. Qed.
Lemma alone_trans i s1 s2 s3 : alone i s1 s2 -> alone i s2 s3 -> alone i s1 s3.
Proof. intros [n1 H1] [n2 H2]. exists (n1 + n2)%nat. rewrite repeat_app, run_app, H1. exact H2. Qed.
Lemma alone_step i s s' : step i s = s' -> alone i s s'.
Proof. intros H. exists 1%nat. exact H. Qed.

Section Alone.
  Context (i : nat) (ths : list (prog * list answer)) (x0 : prog * list answer) (Hi : nth_error ths i = Some x0).
  Notation st := (at_thread i ths).

  Lemma step_at t r w p o : step i (st t r w p o) =
    match p with
    | PDone | PPanic | PSpin => st t r w p o
    | PPanicW => mkSys t r false true (set_nth i (PPanic, o) ths)
    | PEmit a k => st t r w k (o ++ [a])
    | PAcqR k => if w then st t r w p o else st t (r + 1) w k o
    | PRelR k => st t (r - 1) w k o
    | PAcqW k => if w || negb (r =? 0) then st t r w p o else st t r true k o
    | PRelW k => st t r false k o
    | PLook k => st t r w (k t) o
    | PMod m k => st (m t) r w k o
    end.
  Proof.
    unfold step, at_thread. cbn [sh_threads sh_tab sh_readers sh_writer sh_poison].
    rewrite (nth_set_nth_same i (p, o) ths x0 Hi).
    assert (E : forall y, set_thread (mkSys t r w false (set_nth i (p, o) ths)) i y = set_nth i y ths)
      by (intros y; unfold set_thread; cbn [sh_threads]; apply set_nth_twice).
    destruct p; rewrite ?E; try reflexivity.
  Qed.

  Ltac one := eapply alone_trans; [apply alone_step; rewrite step_at; change (0 =? 0) with true; cbn [orb negb]; reflexivity|change (0 + 1 - 1) with 0; cbn beta].

  Lemma alone_find f k t o : alone i (st t 0 false (find_prog f k) o) (st t 0 false (k (find_header t f)) o).
  Proof. unfold find_prog. one. one. one. apply alone_refl. Qed.

  Lemma alone_evict n k o : forall t t', consolidate n t = Ok t' ->
    alone i (st t 0 true (evict_prog n k) o) (st t' 0 false k o).
  Proof.
    induction n as [|n IH]; intros t t' H; [discriminate|]. cbn [consolidate] in H. cbn [evict_prog]. one.
    destruct (hi_max t <? hi_size t); [|injection H as <-; one; apply alone_refl].
    destruct (back (hi_table t)) as [e|]; [|discriminate]. destruct (hi_size t <? entry_size e); [discriminate|].
    one. one. cbn [hi_table hi_size hi_max]. apply IH, H.
  Qed.
  Lemma alone_add f k o t t' : add_header t f = Ok t' -> alone i (st t 0 false (add_prog f k) o) (st t' 0 false k o).
  Proof. intros H. unfold add_prog. one. one. one. one. cbn [hi_table hi_size hi_max]. apply alone_evict, H. Qed.
  Lemma alone_max m k o t t' : set_max_table_size t m = Ok t' -> alone i (st t 0 false (max_prog m k) o) (st t' 0 false k o).
  Proof. intros H. unfold max_prog. one. one. one. cbn [hi_table hi_size hi_max]. apply alone_evict, H. Qed.

  Lemma alone_enc_header f k o t t' b : encode_header t f = Ok (t', b) ->
    alone i (st t 0 false (enc_header_prog f k) o) (st t' 0 false (k b) o).
  Proof.
    intros H. unfold enc_header_prog. eapply alone_trans; [apply alone_find|]. unfold encode_header in H.
    destruct (find_header t f) as [[ix [|]]|].
    - injection H as <- <-. apply alone_refl.
    - apply bind_ok in H. destruct H as (b' & E & H). apply bind_ok in H. destruct H as (t2 & E2 & H). injection H as <- <-.
      rewrite E. cbn [plift]. apply alone_add, E2.
    - apply bind_ok in H. destruct H as (b' & E & H). apply bind_ok in H. destruct H as (t2 & E2 & H). injection H as <- <-.
      rewrite E. cbn [plift]. apply alone_add, E2.
  Qed.
  Lemma alone_enc l o : forall t t' b acc k, encode_headers t l = Ok (t', b) ->
    alone i (st t 0 false (enc_prog l acc k) o) (st t' 0 false (k (acc ++ b)) o).
  Proof.
    induction l as [|f l IH]; intros t t' b acc k H; cbn [encode_headers enc_prog] in *.
    - injection H as <- <-. rewrite app_nil_r. apply alone_refl.
    - apply bind_ok in H. destruct H as ([t1 b1] & E1 & H). apply bind_ok in H. destruct H as ([t2 b2] & E2 & H).
      injection H as <- <-. eapply alone_trans; [apply alone_enc_header, E1|]. cbn beta. rewrite app_assoc. apply IH, E2.
  Qed.

  Lemma alone_literal buf ix kok kerr o t : match decode_literal t buf ix with
    | Ok a => alone i (st t 0 false (dec_literal_prog buf ix kok kerr) o) (st t 0 false (kok a) o)
    | Err e => alone i (st t 0 false (dec_literal_prog buf ix kok kerr) o) (st t 0 false (kerr e) o)
    | _ => True
    end.
  Proof.
    rewrite literal_parts, literal_prog_eq. destruct (decode_integer _ _) as [[n c]|e| |]; cbn [bind plift fst snd]; try exact Logic.I; [|apply alone_refl].
    destruct (n =? 0).
    - destruct (name_part buf c) as [[nm c']|e| |]; cbn [bind plift fst snd]; try exact Logic.I; [|apply alone_refl].
      destruct (value_part buf nm c') as [a|e| |]; cbn [plift]; try exact Logic.I; apply alone_refl.
    - assert (K : forall k, alone i (st t 0 false (PAcqR (PLook (fun t => PRelR (k t)))) o) (st t 0 false (k t) o))
        by (intros k; one; one; one; apply alone_refl).
      destruct (get_from_table t n) as [f|e| |] eqn:Eg; cbn [bind]; try exact Logic.I.
      + destruct (value_part buf (fst f) c) as [a|e| |] eqn:Ev; try exact Logic.I;
          (eapply alone_trans; [apply K|]; cbn beta; rewrite Eg; cbn [plift]; rewrite Ev; cbn [plift]; apply alone_refl).
      + eapply alone_trans; [apply K|]. cbn beta. rewrite Eg. cbn [plift]. apply alone_refl.
  Qed.

  Lemma alone_dec n o : forall t buf acc k t' r, decode_loop n t buf = (t', r) ->
    match r with
    | Ok l => alone i (st t 0 false (dec_prog (fun _ k => k) n buf acc k) o) (st t' 0 false (k (Ok (acc ++ l))) o)
    | Err e => alone i (st t 0 false (dec_prog (fun _ k => k) n buf acc k) o) (st t' 0 false (k (Err e)) o)
    | _ => True
    end.
  Proof.
    induction n as [|n IH]; intros t buf acc k t' r H; cbn [decode_loop] in H.
    - injection H as <- <-. exact Logic.I.
    - destruct buf as [|y buf]; [injection H as <- <-; rewrite app_nil_r; apply alone_refl|].
      cbn [dec_prog]. unfold decode_one in H. destruct (representation_of (hd 0 (y :: buf))) eqn:Er.
      + unfold decode_indexed in H.
        assert (G : get_from_table t (N.land (hd 0 (y :: buf)) 127) = match get_from_index t (N.land (hd 0 (y :: buf)) 127) with Some f => Ok f | None => Err oob_err end) by reflexivity.
        destruct (get_from_index t (N.land (hd 0 (y :: buf)) 127)) as [f|] eqn:Eg; rewrite G in H; cbn [bind] in H.
        * destruct (decode_loop n t (skipn (N.to_nat 1) (y :: buf))) as [t2 r2] eqn:E2. injection H as <- <-.
          change (N.to_nat 1) with 1%nat in E2.
          pose proof (IH t (skipn 1 (y :: buf)) (acc ++ [f]) k t2 r2 E2) as K.
          assert (P : alone i (st t 0 false (PAcqR (PLook (fun t0 : hindex =>
              match get_from_table t0 (N.land (hd 0 (y :: buf)) 127) with
              | Ok f => PRelR (dec_prog (fun _ k0 => k0) n (skipn 1 (y :: buf)) (acc ++ [f]) k)
              | Err e => PRelR (k (Err e)) | _ => PRelR PPanic end))) o)
              (st t 0 false (dec_prog (fun _ k0 => k0) n (skipn 1 (y :: buf)) (acc ++ [f]) k) o)).
          { one. one. rewrite G. one. apply alone_refl. }
          destruct r2 as [l|e| |]; cbn [bind] in *; try exact Logic.I; (eapply alone_trans; [exact P|]).
          { replace (acc ++ f :: l) with ((acc ++ [f]) ++ l) by (rewrite <- app_assoc; reflexivity). exact K. }
          exact K.
        * injection H as <- <-. one. one. rewrite G. one. apply alone_refl.
      + pose proof (alone_literal (y :: buf) true (fun fk => add_prog (fst fk) (dec_prog (fun _ k => k) n (skipn (N.to_nat (snd fk)) (y :: buf)) (acc ++ [fst fk]) k))
          (fun e => k (Err e)) o t) as L.
        destruct (decode_literal t (y :: buf) true) as [[f c]|e| |]; cbn [bind] in H; try (injection H as <- <-; exact Logic.I).
        * destruct (add_header t f) as [t1|e| |] eqn:Ea; cbn [bind] in H.
          { destruct (decode_loop n t1 (skipn (N.to_nat c) (y :: buf))) as [t2 r2] eqn:E2. injection H as <- <-.
            pose proof (IH t1 (skipn (N.to_nat c) (y :: buf)) (acc ++ [f]) k t2 r2 E2) as K. cbn [fst snd] in L.
            destruct r2 as [l|e| |]; cbn [bind] in *; try exact Logic.I;
              (eapply alone_trans; [exact L|]; eapply alone_trans; [apply alone_add, Ea|]); [|exact K].
            replace (acc ++ f :: l) with ((acc ++ [f]) ++ l) by (rewrite <- app_assoc; reflexivity). exact K. }
          { exfalso. revert Ea. unfold add_header, consolidate_table. clear.
            assert (G : forall m s e', consolidate m s <> Err e').
            { induction m as [|m IHm]; intros s e'; cbn [consolidate]; [discriminate|].
              destruct (_ <? _); [|discriminate]. destruct (back _); [|discriminate]. destruct (_ <? _); [discriminate|apply IHm]. }
            apply G. }
          { injection H as <- <-. exact Logic.I. }
          { injection H as <- <-. exact Logic.I. }
        * injection H as <- <-. exact L.
      + destruct (decode_loop n t (skipn (N.to_nat 0) (y :: buf))) as [t2 r2] eqn:E2. injection H as <- <-.
        assert (D : forall m, exists tt, decode_loop m t (y :: buf) = (tt, Diverge)).
        { clear - Er. induction m as [|m [tt E]]; [exists t; reflexivity|]. cbn [decode_loop]. unfold decode_one. rewrite Er.
          change (skipn (N.to_nat 0) (y :: buf)) with (y :: buf). rewrite E. cbn [bind]. eauto. }
        destruct (D n) as [tt E]. change (skipn (N.to_nat 0) (y :: buf)) with (y :: buf) in E2. rewrite E in E2. injection E2 as <- <-. exact Logic.I.
      + pose proof (alone_literal (y :: buf) false (fun fk => dec_prog (fun _ k => k) n (skipn (N.to_nat (snd fk)) (y :: buf)) (acc ++ [fst fk]) k)
          (fun e => k (Err e)) o t) as L.
        destruct (decode_literal t (y :: buf) false) as [[f c]|e| |]; cbn [bind] in H; try (injection H as <- <-; first [exact Logic.I|exact L]).
        destruct (decode_loop n t (skipn (N.to_nat c) (y :: buf))) as [t2 r2] eqn:E2. injection H as <- <-.
        pose proof (IH t (skipn (N.to_nat c) (y :: buf)) (acc ++ [f]) k t2 r2 E2) as K. cbn [fst snd] in L.
        destruct r2 as [l|e| |]; cbn [bind] in *; try exact Logic.I; (eapply alone_trans; [exact L|]); [|exact K].
        replace (acc ++ f :: l) with ((acc ++ [f]) ++ l) by (rewrite <- app_assoc; reflexivity). exact K.
      + pose proof (alone_literal (y :: buf) false (fun fk => dec_prog (fun _ k => k) n (skipn (N.to_nat (snd fk)) (y :: buf)) (acc ++ [fst fk]) k)
          (fun e => k (Err e)) o t) as L.
        destruct (decode_literal t (y :: buf) false) as [[f c]|e| |]; cbn [bind] in H; try (injection H as <- <-; first [exact Logic.I|exact L]).
        destruct (decode_loop n t (skipn (N.to_nat c) (y :: buf))) as [t2 r2] eqn:E2. injection H as <- <-.
        pose proof (IH t (skipn (N.to_nat c) (y :: buf)) (acc ++ [f]) k t2 r2 E2) as K. cbn [fst snd] in L.
        destruct r2 as [l|e| |]; cbn [bind] in *; try exact Logic.I; (eapply alone_trans; [exact L|]); [|exact K].
        replace (acc ++ f :: l) with ((acc ++ [f]) ++ l) by (rewrite <- app_assoc; reflexivity). exact K.
  Qed.

  Lemma alone_encode_call fs k o t t' b : encode_headers t fs = Ok (t', b) ->
    alone i (st t 0 false (call_prog (CEncode fs) k) o) (st t' 0 false k (o ++ [ABlock b])).
  Proof.
    intros H. cbn [call_prog]. eapply alone_trans; [apply alone_enc, H|]. cbn [app]. one. apply alone_refl.
  Qed.
  Lemma alone_decode_call b k o t t' r : decode_headers t b = (t', r) -> (r = Diverge -> False) -> (r = Panic -> False) ->
    alone i (st t 0 false (call_prog (CDecode b) k) o) (st t' 0 false k (o ++ [ARead r])).
  Proof.
    intros H N1 N2. cbn [call_prog]. pose proof (alone_dec (S (length b)) o t b [] (fun r => PEmit (ARead r) k) t' r H) as K.
    destruct r as [l|e| |]; [| |elim N2; reflexivity|elim N1; reflexivity];
      (eapply alone_trans; [exact K|]; cbn [app]; one; apply alone_refl).
  Qed.
  Lemma alone_max_call m k o t t' : set_max_table_size t m = Ok t' ->
    alone i (st t 0 false (call_prog (CMax m) k) o) (st t' 0 false k (o ++ [ASet])).
  Proof. intros H. cbn [call_prog]. eapply alone_trans; [apply alone_max, H|]. one. apply alone_refl. Qed.
End Alone.

(** ** Blocks one after another *)
Definition threads (w : list (nat * list hfield)) (o : nat -> list answer) (n : nat) : list (prog * list answer) :=
  map (fun i => (thread_prog (calls_of w i), o i)) (seq 0 n).

Lemma nth_threads w o n i : (i < n)%nat -> nth_error (threads w o n) i = Some (thread_prog (calls_of w i), o i).
Proof.
  intros H. unfold threads. rewrite nth_error_map, (nth_error_nth' _ 0%nat) by (rewrite seq_length; exact H).
  rewrite seq_nth by exact H. reflexivity.
Qed.
Lemma nth_threads_none w o n i : (n <= i)%nat -> nth_error (threads w o n) i = None.
Proof. intros H. apply nth_error_None. unfold threads. rewrite map_length, seq_length. exact H. Qed.

Lemma threads_set i fs w o n a : (i < n)%nat ->
  set_nth i (thread_prog (calls_of w i), o i ++ [a]) (threads ((i, fs) :: w) o n) =
  threads w (fun j => o j ++ (if Nat.eqb i j then [a] else [])) n.
Proof.
  intros H. apply nth_ext_all. intros j. destruct (Nat.eq_dec i j) as [<-|N].
  - rewrite (nth_set_nth_same _ _ _ _ (nth_threads _ _ _ _ H)), (nth_threads _ _ _ _ H), Nat.eqb_refl. reflexivity.
  - rewrite nth_set_nth_other by exact N. destruct (Nat.lt_ge_cases j n) as [L|L].
    + rewrite !nth_threads by exact L. unfold calls_of. cbn [filter fst]. destruct (Nat.eqb_spec i j) as [E|_]; [contradiction|].
      rewrite app_nil_r. reflexivity.
    + rewrite !nth_threads_none by exact L. reflexivity.
Qed.

Lemma serial_run J w : run_ok J -> forall te td o n, paired te td ->
  J (hi_max te) (hi_table te) (map (fun x => EvBlock (snd x)) w) -> Forall (fun x => (fst x < n)%nat) w ->
  exists ns bs te', length ns = length w /\ length bs = length w /\
    run (one_by_one w ns) (mkSys te 0 false false (threads w o n)) =
      mkSys te' 0 false false (threads [] (fun i => o i ++ answers_of w bs i) n) /\
    peer_reads td bs = Ok (map (fun x => map lower_field (snd x)) w).
Proof.
  intros RJ. induction w as [|[i fs] w IH]; intros te td o n P HJ L.
  - exists [], [], te. split; [reflexivity|]. split; [reflexivity|]. split; [|reflexivity].
    cbn [one_by_one run fold_left concat map combine]. f_equal. unfold threads. apply map_ext. intros i.
    unfold answers_of. cbn [combine filter map]. rewrite app_nil_r. reflexivity.
  - inversion L as [|? ? Li Lw]; subst. cbn [fst snd map] in *.
    destruct (block_sync J fs RJ te td _ P HJ) as (te1 & b & E & M & I & K & D).
    destruct (alone_encode_call i (threads ((i, fs) :: w) o n) _ (nth_threads _ _ _ _ Li) fs (thread_prog (calls_of w i)) (o i) te te1 b E) as [k Hk].
    destruct (IH te1 _ (fun j => o j ++ (if Nat.eqb i j then [ABlock b] else [])) n (conj I eq_refl) K Lw) as (ns & bs & te2 & L1 & L2 & R & PR).
    exists (k :: ns), (b :: bs), te2. split; [cbn [length]; congruence|]. split; [cbn [length]; congruence|]. split.
    + unfold one_by_one. cbn [combine map concat fst snd]. fold (one_by_one w ns). rewrite run_app.
      unfold at_thread in Hk. rewrite threads_set in Hk by exact Li.
      assert (E0 : set_nth i (call_prog (CEncode fs) (thread_prog (calls_of w i)), o i) (threads ((i, fs) :: w) o n) =
                   threads ((i, fs) :: w) o n).
      { apply set_nth_same. rewrite nth_threads by exact Li. unfold calls_of. cbn [filter fst]. rewrite Nat.eqb_refl. reflexivity. }
      rewrite E0 in Hk. rewrite Hk, R. f_equal. unfold threads. apply map_ext. intros j. f_equal.
      unfold answers_of. cbn [combine filter fst snd]. destruct (Nat.eqb i j); cbn [map]; rewrite <- app_assoc; reflexivity.
    + cbn [peer_reads]. rewrite D. cbn [bind]. rewrite PR. reflexivity.
Qed.

Lemma sent_blocks w : sent (map (fun x : nat * list hfield => EvBlock (snd x)) w) = map snd w.
Proof. induction w as [|x w IH]; [reflexivity|]. cbn [map sent]. rewrite IH. reflexivity. Qed.

Lemma serial_blocks m w n : Forall (fun x => (fst x < n)%nat) w ->
  Forall sendable (concat (map snd w)) -> Forall (fun f => Forall h2_char (fst f)) (concat (map snd w)) ->
  all_near m (map (fun x => EvBlock (snd x)) w) ->
  exists ns bs, length ns = length w /\ length bs = length w /\
    let s := run (one_by_one w ns) (start m (map (calls_of w) (seq 0 n))) in
    (forall i, (i < n)%nat -> nth_error (sh_threads s) i = Some (PDone, answers_of w bs i)) /\
    peer_reads (hi_with_size m) bs = Ok (map snd w).
Proof.
  intros L S H K.
  destruct (serial_run _ w (by_place_ok (concat (map snd w)) (h2_pool _ S H)) (hi_with_size m) (hi_with_size m) (fun _ => []) n
    (fresh_pair m)) as (ns & bs & te & L1 & L2 & R & P).
  - unfold by_place. rewrite sent_blocks. cbn [hi_max hi_table hi_with_size].
    split; [exact K|]. split; [intros g []|apply incl_refl].
  - exact L.
  - exists ns, bs. split; [exact L1|]. split; [exact L2|].
    assert (E : start m (map (calls_of w) (seq 0 n)) = mkSys (hi_with_size m) 0 false false (threads w (fun _ => []) n)).
    { unfold start, threads. rewrite map_map. reflexivity. }
    rewrite E, R. cbn [sh_threads]. split.
    + intros i Hi. rewrite nth_threads by exact Hi. reflexivity.
    + rewrite P. f_equal. etransitivity; [|apply h2_lower_blocks, H]. rewrite map_map. reflexivity.
Qed.

(** ** One table for both directions *)

Lemma lower_id_h2 l : Forall (fun f : hfield => Forall h2_char (fst f)) l -> map lower_field l = l.
Proof. apply h2_lower_all. Qed.

Lemma talk_sync pool l : pool_ok pool -> Forall (fun f => Forall h2_char (fst f)) pool ->
  forall t, idx_inv t -> by_place pool (hi_max t) (hi_table t) (map (fun x => EvBlock (snd x)) l) ->
  exists t', talk t t l = Ok (t', t', map snd l) /\ idx_inv t'.
Proof.
  intros P H. induction l as [|[d fs] l IH]; intros t I BP.
  - exists t. auto.
  - pose proof BP as (_ & D & C). cbn [map concat sent snd] in C.
    assert (Hd : Forall (fun f : hfield => Forall h2_char (fst f)) (hi_table t)).
    { apply Forall_forall. intros f Hf. rewrite Forall_forall in H. apply H, D, Hf. }
    assert (Hf : Forall (fun f : hfield => Forall h2_char (fst f)) fs).
    { apply Forall_forall. intros f Hf. rewrite Forall_forall in H. apply H, C, in_or_app. auto. }
    assert (PP : paired t t).
    { split; [exact I|]. rewrite lower_id_h2 by exact Hd. apply inv_idx_of, I. }
    destruct (block_sync _ fs (by_place_ok pool P) t t _ PP BP) as (te & b & E & Em & Ie & J & Dd).
    pose proof J as (_ & De & _).
    assert (He : Forall (fun f : hfield => Forall h2_char (fst f)) (hi_table te)).
    { apply Forall_forall. intros f Hi. rewrite Forall_forall in H. apply H, De, Hi. }
    rewrite (lower_id_h2 _ He), (lower_id_h2 _ Hf) in Dd. rewrite <- (proj1 (inv_idx_of te Ie)) in Dd.
    destruct (IH te Ie J) as (t' & R & I').
    exists t'. split; [|exact I']. cbn [talk map snd].
    destruct d; rewrite E; cbn [bind]; rewrite Dd; cbn [bind]; rewrite R; reflexivity.
Qed.
