(** C91-C93: compression tables shared between encoders and decoders, over all schedules of threads. *)
From Coq Require Import Ascii String NArith ZArith Lia Bool List.
From Verif Require Import Base S_Utf8 P_Base M_Std M_Helper M_Header M_Huffman M_Hpack.
From Verif Require Import S_Http1 S_Map S_Huffman S_Hpack S_HpackApi S_Near P_HpackSync P_Near M_Share S_Share P_Share P_Share2.
Import ListNotations.
Local Open Scope N_scope.

(** C91. Any number of threads whose encoders and decoders share one table, each making any sequence of
    calls, under every schedule of their steps: no thread panics and the lock is never poisoned; and
    whenever nobody is changing the table, its size is the size of its entries and within its maximum,
    and its content is that of an RFC 7541 table after some changes that the threads asked for. *)
Theorem C91_safe : forall m scripts sched, callables scripts -> let s := run sched (start m scripts) in
  sh_poison s = false /\ (forall i p o, nth_error (sh_threads s) i = Some (p, o) -> ~ crashed p) /\
  (sh_writer s = false ->
     hi_get_size (sh_tab s) = total_size (hi_to_vec (sh_tab s)) /\ hi_get_size (sh_tab s) <= hi_get_max (sh_tab s) /\
     exists evs, Forall (asked scripts) evs /\ (hi_get_max (sh_tab s), hi_to_vec (sh_tab s)) = rfc_run m evs).
Proof. exact shared_safe. Qed.
Print Assumptions C91_safe.
(** Every access is as if it happened at one instant: the tables and answers of a run are those of a run
    of whole critical sections, in an order that the schedule contains. *)
Theorem C91_linear : forall m scripts sched, callables scripts -> let s := run sched (start m scripts) in
  (forall i p o, nth_error (sh_threads s) i = Some (p, o) -> between p) ->
  exists order, subseq order sched /\ (sh_tab s, sh_threads s) = arun order (astart m scripts).
Proof. exact shared_linear. Qed.
Print Assumptions C91_linear.
(** A call that no other thread interrupts does what the same call does with a table of its own. *)
Theorem C91_encode_alone : forall i ths x t fs t' b k o, nth_error ths i = Some x ->
  encode_headers t fs = Ok (t', b) -> exists n,
  run (repeat i n) (mkSys t 0 false false (set_nth i (call_prog (CEncode fs) k, o) ths)) =
    mkSys t' 0 false false (set_nth i (k, o ++ [ABlock b]) ths).
Proof. intros i ths x t fs t' b k o Hi H. exact (alone_encode_call i ths x Hi fs k o t t' b H). Qed.
Print Assumptions C91_encode_alone.
Theorem C91_decode_alone : forall i ths x t b t' r k o, nth_error ths i = Some x ->
  decode_headers t b = (t', r) -> r <> Diverge -> r <> Panic -> exists n,
  run (repeat i n) (mkSys t 0 false false (set_nth i (call_prog (CDecode b) k, o) ths)) =
    mkSys t' 0 false false (set_nth i (k, o ++ [ARead r]) ths).
Proof. intros i ths x t b t' r k o Hi H N1 N2. exact (alone_decode_call i ths x Hi b k o t t' r H N1 N2). Qed.
Print Assumptions C91_decode_alone.
Theorem C91_set_max_alone : forall i ths x t m t' k o, nth_error ths i = Some x ->
  set_max_table_size t m = Ok t' -> exists n,
  run (repeat i n) (mkSys t 0 false false (set_nth i (call_prog (CMax m) k, o) ths)) =
    mkSys t' 0 false false (set_nth i (k, o ++ [ASet]) ths).
Proof. intros i ths x t m t' k o Hi H. exact (alone_max_call i ths x Hi m k o t t' H). Qed.
Print Assumptions C91_set_max_alone.
(** Nobody waits for ever: while a thread has not ended, some thread can make a step, because the lock is
    free or because that thread is not asking for it ... *)
Theorem C91_no_deadlock : forall m scripts sched i p o, callables scripts -> let s := run sched (start m scripts) in
  nth_error (sh_threads s) i = Some (p, o) -> ~ ended p ->
  exists j q oj, nth_error (sh_threads s) j = Some (q, oj) /\ ~ ended q /\ (lock_free s \/ ~ asks_lock q).
Proof. exact shared_no_deadlock. Qed.
Print Assumptions C91_no_deadlock.
(** ... there is no endless run of steps that are not waits ... *)
Theorem C91_steps_end : well_founded progress.
Proof. exact progress_wf. Qed.
Print Assumptions C91_steps_end.
(** ... so every run can be continued until all threads have ended. *)
Theorem C91_finish : forall m scripts sched, callables scripts -> exists rest, forall i p o,
  nth_error (sh_threads (run (sched ++ rest) (start m scripts))) i = Some (p, o) -> ended p.
Proof. exact shared_finish. Qed.
Print Assumptions C91_finish.

Definition share_scripts : list (list call) :=
  [[CEncode [(str "x-a", str "1")]; CEncode [(str "x-a", str "1"); (str "x-a", str "1")]]; [CEncode [(str "x-b", str "2")]]].
(** Thread 0 encodes its first block and finds the first header of its second one; then thread 1 runs. *)
Definition share_sched : list nat := repeat 0%nat 13 ++ repeat 1%nat 10 ++ repeat 0%nat 4.
Example C91_nonvacuous : callables share_scripts /\
  nth_error (sh_threads (run share_sched (start 4096 share_scripts))) 1 =
    Some (PDone, [ABlock [64; 131; 242; 180; 127; 129; 23]]) /\
  hi_to_vec (sh_tab (run share_sched (start 4096 share_scripts))) = [(str "x-b", str "2"); (str "x-a", str "1")].
Proof.
  split; [|split; vm_compute; reflexivity].
  repeat constructor; cbn; repeat constructor; unfold byte_ok; lia.
Qed.
(** In the middle of that run a thread does wait. *)
Example C91_waiting : let s := run (repeat 0%nat 3 ++ repeat 0%nat 2) (start 4096 share_scripts) in
  sh_writer s = true /\ exists k o, nth_error (sh_threads s) 1 = Some (PAcqR k, o).
Proof. split; [vm_compute; reflexivity|]. eexists. eexists. reflexivity. Qed.

(** Refuted for a callback that uses the table: decode_with_cb calls it for an indexed header while it
    holds the read guard.  Here the callback passes the headers on through an encoder that shares the
    table; on the second request with the same user-agent it asks for the write guard, and the thread
    waits for itself. *)
Definition pass_on (f : hfield) (k : prog) : prog := enc_header_prog f (fun _ => k).
Definition passing (b1 b2 : bytes) : sys :=
  mkSys hi_new 0 false false
    [(dec_prog pass_on (S (length b1)) b1 [] (fun r1 => PEmit (ARead r1)
       (dec_prog pass_on (S (length b2)) b2 [] (fun r2 => PEmit (ARead r2) PDone))), [])].
Definition stuck0 (s : sys) : bool :=
  negb (sh_readers s =? 0) && match sh_threads s with [(PAcqW _, _)] => true | _ => false end.
Theorem C91_callback_refuted : exists te te' b1 b2 n,
  encode_headers hi_new [(str "user-agent", str "x")] = Ok (te, b1) /\
  decode_headers te b2 = (te', Ok [(str "user-agent", str "x")]) /\
  let s := run (repeat 0%nat n) (passing b1 b2) in
  (exists k o, sh_threads s = [(PAcqW k, o)]) /\ sh_readers s = 1 /\ forall sched, run sched s = s.
Proof.
  eexists. eexists. eexists. exists [190], 60%nat.
  split; [vm_compute; reflexivity|]. split; [vm_compute; reflexivity|]. intros s.
  assert (H : stuck0 s = true) by (vm_compute; reflexivity).
  assert (R : sh_readers s = 1) by (vm_compute; reflexivity).
  assert (W : sh_writer s = false) by (vm_compute; reflexivity).
  clearbody s. unfold stuck0 in H. apply andb_true_iff in H. destruct H as [_ H].
  destruct (sh_threads s) as [|[p o] l] eqn:E; [discriminate H|].
  destruct p as [| | | | | | |k| | |]; try discriminate H. destruct l as [|y l]; [|discriminate H].
  split; [eauto|]. split; [exact R|]. induction sched as [|j sched IH]; [reflexivity|].
  cbn [run fold_left]. assert (S : step j s = s).
  { unfold step. rewrite E. destruct j as [|[|j]]; cbn [nth_error]; try reflexivity. rewrite W, R. reflexivity. }
  rewrite S. exact IH.
Qed.
Print Assumptions C91_callback_refuted.

(** C92. Encoders that share a table and write to one connection: when their blocks are encoded one
    after another, by whichever threads, and written in that order, the peer reads all headers as sent.
    Partial: as in C31 (HTTP/2 names, repeated fields among the newest 65 entries). *)
Theorem C92_one_by_one_partial : forall m w n, Forall (fun x => (fst x < n)%nat) w ->
  Forall sendable (concat (map snd w)) -> Forall (fun f => Forall h2_char (fst f)) (concat (map snd w)) ->
  all_near m (map (fun x => EvBlock (snd x)) w) ->
  exists ns bs, length ns = length w /\ length bs = length w /\
    let s := run (one_by_one w ns) (start m (map (calls_of w) (seq 0 n))) in
    (forall i, (i < n)%nat -> nth_error (sh_threads s) i = Some (PDone, answers_of w bs i)) /\
    peer_reads (hi_with_size m) bs = Ok (map snd w).
Proof. exact serial_blocks. Qed.
Print Assumptions C92_one_by_one_partial.
Definition share_wire : list (nat * list hfield) :=
  [(0%nat, [(str "x-request-id", str "1")]); (1%nat, [(str "x-request-id", str "2")]);
   (0%nat, [(str "x-request-id", str "2"); (str "x-request-id", str "1")])].
Example C92_nonvacuous : Forall (fun x => (fst x < 2)%nat) share_wire /\
  Forall sendable (concat (map snd share_wire)) /\ Forall (fun f => Forall h2_char (fst f)) (concat (map snd share_wire)) /\
  all_near 2900 (map (fun x => EvBlock (snd x)) share_wire).
Proof.
  split; [repeat constructor|]. split; [apply sendableb_ok; vm_compute; reflexivity|].
  split; [apply h2_charb_ok; vm_compute; reflexivity|].
  apply few_near; [apply h2_pool; [apply sendableb_ok; vm_compute; reflexivity|apply h2_charb_ok; vm_compute; reflexivity]|cbn; lia].
Qed.
(** Refuted when another thread encodes a block in between: thread 0 sends x-a again and twice, with the
    indices 62 and 63, because thread 1 has added x-b meanwhile.  Whatever the order in which the blocks
    are written to the connection, the peer does not read them right. *)
Theorem C92_interleaved_refuted : exists b1 b2 b3, let s := run share_sched (start 4096 share_scripts) in
  let f1 := [(str "x-a", str "1")] in let f2 := [(str "x-a", str "1"); (str "x-a", str "1")] in let f3 := [(str "x-b", str "2")] in
  share_scripts = [[CEncode f1; CEncode f2]; [CEncode f3]] /\
  sh_threads s = [(PDone, [ABlock b1; ABlock b2]); (PDone, [ABlock b3])] /\
  peer_reads hi_new [b1; b2; b3] <> Ok [f1; f2; f3] /\
  peer_reads hi_new [b1; b3; b2] <> Ok [f1; f3; f2] /\
  peer_reads hi_new [b3; b1; b2] <> Ok [f3; f1; f2].
Proof.
  eexists. eexists. eexists. split; [reflexivity|]. split; [vm_compute; reflexivity|].
  split; [vm_compute; discriminate|]. split; vm_compute; discriminate.
Qed.
Print Assumptions C92_interleaved_refuted.

(** C93. Two endpoints that each use one table for both directions, as the single table that a request or
    response carries in its extensions suggests: while they take turns, everything is read as sent and
    the two tables stay the same.
    Partial: as in C31. *)
Theorem C93_turns_partial : forall m l, Forall sendable (concat (map snd l)) ->
  Forall (fun f => Forall h2_char (fst f)) (concat (map snd l)) ->
  all_near m (map (fun x => EvBlock (snd x)) l) ->
  exists t, talk (hi_with_size m) (hi_with_size m) l = Ok (t, t, map snd l).
Proof.
  intros m l S H K.
  destruct (talk_sync (concat (map snd l)) l (h2_pool _ S H) H (hi_with_size m) (fresh_inv m)) as (t & E & _); [|exists t; exact E].
  split; [exact K|]. split; [intros g []|].
  assert (X : sent (map (fun x : bool * list hfield => EvBlock (snd x)) l) = map snd l)
    by (clear; induction l as [|x l IH]; [reflexivity|]; cbn [map sent]; rewrite IH; reflexivity).
  rewrite X. apply incl_refl.
Qed.
Print Assumptions C93_turns_partial.
Definition turns : list (bool * list hfield) :=
  [(true, [(str ":path", str "/one"); (str "user-agent", str "curl/8.5.0")]); (false, [(str "server", str "nginx/1.24")]);
   (true, [(str ":path", str "/one"); (str "user-agent", str "curl/8.5.0")]); (false, [(str "x-served-by", str "nginx/1.24")])].
Example C93_nonvacuous : Forall sendable (concat (map snd turns)) /\
  Forall (fun f => Forall h2_char (fst f)) (concat (map snd turns)) /\
  all_near 2700 (map (fun x => EvBlock (snd x)) turns).
Proof.
  split; [apply sendableb_ok; vm_compute; reflexivity|].
  split; [apply h2_charb_ok; vm_compute; reflexivity|].
  apply few_near; [apply h2_pool; [apply sendableb_ok; vm_compute; reflexivity|apply h2_charb_ok; vm_compute; reflexivity]|cbn; lia].
Qed.
(** Refuted when blocks cross: each endpoint sends one before it has received the other's.  Both are still
    read right, but the next header that the table holds is read as another one. *)
Theorem C93_crossing_refuted : exists fa fb fs ta tb ta' tb' got,
  cross hi_new hi_new fa fb = Ok (ta, tb, fa, fb) /\ talk ta tb [(true, fs)] = Ok (ta', tb', [got]) /\ got <> fs.
Proof.
  exists [(str "x-a", str "1")], [(str "x-b", str "2")], [(str "x-a", str "1")]. do 5 eexists.
  split; [vm_compute; reflexivity|]. split; [vm_compute; reflexivity|]. vm_compute. discriminate.
Qed.
Print Assumptions C93_crossing_refuted.
(** Refuted with a peer that keeps a table for each direction, as RFC 7541 2.2 demands: after the peer's
    first header the indices it is sent are wrong. *)
Theorem C93_rfc_peer_refuted : exists l e, Forall sendable (concat (map snd l)) /\
  talk_rfc hi_new hi_new hi_new l = Err e /\ exists t, talk hi_new hi_new l = Ok (t, t, map snd l).
Proof.
  exists [(true, [(str "x-a", str "1")]); (false, [(str "x-b", str "2")]); (true, [(str "x-a", str "1")])]. eexists.
  split; [apply sendableb_ok; vm_compute; reflexivity|]. split; [vm_compute; reflexivity|].
  eexists. vm_compute. reflexivity.
Qed.
Print Assumptions C93_rfc_peer_refuted.
