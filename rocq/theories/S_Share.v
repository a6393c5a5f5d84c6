(** What C91-C93 say about threads that share a compression table: when such a run is safe, what it
    means that every access to the table happens at one instant, what a waiting thread is, and what a
    peer that reads the blocks sees. *)
From Coq Require Import NArith Bool List.
From Verif Require Import Base S_Http1 S_Map M_Hpack S_Hpack S_HpackApi M_Share.
Import ListNotations.
Local Open Scope N_scope.

(** Calls the API allows: headers with ASCII names; any octets to decode; any maximum. *)
Definition callable (c : call) : Prop := match c with CEncode fs => Forall sendable fs | _ => True end.
Definition callables (scripts : list (list call)) : Prop := Forall (Forall callable) scripts.

(** ** Ends of threads.  A thread has ended when it has made all its calls, or when a decoder is in the
    endless loop of C32; it has crashed when it panicked. *)
Definition ended (p : prog) : Prop := p = PDone \/ p = PSpin.
Definition crashed (p : prog) : Prop := p = PPanic \/ p = PPanicW.

(** The changes of the table that the threads' calls can ask for. *)
Definition asked (scripts : list (list call)) (e : tevent) : Prop :=
  match e with
  | TMax m => exists l, In l scripts /\ In (CMax m) l
  | TAdd f => exists l, In l scripts /\ ((exists fs, In (CEncode fs) l /\ In f fs) \/ exists b, In (CDecode b) l)
  end.

(** ** The same threads when every critical section happens at one instant: a thread runs to its next
    request of the lock. *)
Fixpoint go (p : prog) (t : hindex) : hindex * list answer * prog :=
  match p with
  | PEmit a k => let '(t', o, p') := go k t in (t', a :: o, p')
  | PRelR k | PRelW k => go k t
  | PLook k => go (k t) t
  | PMod m k => go k (m t)
  | PDone | PPanic | PPanicW | PSpin | PAcqR _ | PAcqW _ => (t, [], p)
  end.
Definition sect (p : prog) (t : hindex) : hindex * list answer * prog :=
  match p with PAcqR k | PAcqW k => go k t | _ => (t, [], p) end.
Definition astep (i : nat) (s : hindex * list (prog * list answer)) : hindex * list (prog * list answer) :=
  match nth_error (snd s) i with
  | None => s
  | Some (p, o) => let '(t', o', p') := sect p (fst s) in (t', set_nth i (p', o ++ o') (snd s))
  end.
Definition arun (order : list nat) (s : hindex * list (prog * list answer)) : hindex * list (prog * list answer) :=
  fold_left (fun s i => astep i s) order s.
Definition astart (m : N) (scripts : list (list call)) : hindex * list (prog * list answer) :=
  (hi_with_size m, map (fun l => let '(_, o, p) := go (thread_prog l) (hi_with_size m) in (p, o)) scripts).

(** [order] keeps the order of [sched] *)
Inductive subseq {A} : list A -> list A -> Prop :=
| sub_nil : forall l, subseq [] l
| sub_skip : forall x a b, subseq a b -> subseq a (x :: b)
| sub_take : forall x a b, subseq a b -> subseq (x :: a) (x :: b).

(** Between its critical sections a thread is about to ask for the lock, or has ended. *)
Definition between (p : prog) : Prop :=
  match p with PDone | PSpin | PAcqR _ | PAcqW _ => True | _ => False end.

(** ** Waiting.  A thread may have to wait only when it asks for the lock. *)
Definition asks_lock (p : prog) : Prop := match p with PAcqR _ | PAcqW _ => True | _ => False end.
Definition lock_free (s : sys) : Prop := sh_readers s = 0 /\ sh_writer s = false.
Definition waits (s : sys) (p : prog) : Prop :=
  match p with
  | PAcqR _ => sh_writer s = true
  | PAcqW _ => sh_writer s = true \/ sh_readers s <> 0
  | _ => False
  end.
(** A step that is not a wait, of a thread that has not ended. *)
Definition progress (s' s : sys) : Prop :=
  exists i p o, nth_error (sh_threads s) i = Some (p, o) /\ ~ ended p /\ ~ crashed p /\ ~ waits s p /\ s' = step i s.

(** ** Wires.  The blocks in the order in which they are written to the connection, each with the thread
    that encoded it. *)
Fixpoint peer_reads (td : hindex) (bs : list bytes) : res (list (list hfield)) :=
  match bs with
  | [] => Ok []
  | b :: bs' =>
    let '(td', r) := decode_headers td b in
    got <- r ;; rest <- peer_reads td' bs' ;; Ok (got :: rest)
  end.
Definition calls_of (w : list (nat * list hfield)) (i : nat) : list call :=
  map (fun x => CEncode (snd x)) (filter (fun x => Nat.eqb (fst x) i) w).
Definition answers_of (w : list (nat * list hfield)) (bs : list bytes) (i : nat) : list answer :=
  map (fun x => ABlock (snd x)) (filter (fun x => Nat.eqb (fst (fst x)) i) (combine w bs)).

(** ** One table for both directions: two endpoints that each use a single table for what they send and
    for what they receive.  [true]: the first endpoint sends the block, [false]: the second does. *)
Fixpoint talk (ta tb : hindex) (l : list (bool * list hfield)) : res (hindex * hindex * list (list hfield)) :=
  match l with
  | [] => Ok (ta, tb, [])
  | (d, fs) :: l' =>
    let '(ts, tr) := if d then (ta, tb) else (tb, ta) in
    ' (ts', b) <- encode_headers ts fs ;;
    let '(tr', r) := decode_headers tr b in
    got <- r ;;
    ' (ta2, tb2, rest) <- (if d then talk ts' tr' l' else talk tr' ts' l') ;;
    Ok (ta2, tb2, got :: rest)
  end.

(** The same when both endpoints send a block before either has received the other's. *)
Definition cross (ta tb : hindex) (fa fb : list hfield) : res (hindex * hindex * list hfield * list hfield) :=
  ' (ta1, ba) <- encode_headers ta fa ;;
  ' (tb1, bb) <- encode_headers tb fb ;;
  let '(tb2, ra) := decode_headers tb1 ba in
  let '(ta2, rb) := decode_headers ta1 bb in
  ga <- ra ;; gb <- rb ;; Ok (ta2, tb2, ga, gb).

(** A peer that follows RFC 7541 2.2 and keeps one table for each direction: the first endpoint uses one
    table for both.  The peer's decoding table is [pd], its encoding table [pe]. *)
Fixpoint talk_rfc (ta pd pe : hindex) (l : list (bool * list hfield)) : res (list (list hfield)) :=
  match l with
  | [] => Ok []
  | (true, fs) :: l' =>
    ' (ta', b) <- encode_headers ta fs ;;
    let '(pd', r) := decode_headers pd b in
    got <- r ;; rest <- talk_rfc ta' pd' pe l' ;; Ok (got :: rest)
  | (false, fs) :: l' =>
    ' (pe', b) <- encode_headers pe fs ;;
    let '(ta', r) := decode_headers ta b in
    got <- r ;; rest <- talk_rfc ta' pd pe' l' ;; Ok (got :: rest)
  end.

(** A schedule in which the blocks of [w] are encoded one after another, each by its thread, with [ns]
    steps for each. *)
Definition one_by_one (w : list (nat * list hfield)) (ns : list nat) : list nat :=
  concat (map (fun x => repeat (fst (fst x)) (snd x)) (combine w ns)).
