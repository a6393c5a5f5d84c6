(** Model of several encoders and decoders that share one compression table: the table is held as
    [Arc<RwLock<HeaderIndex>>] (encoder.rs:22-40, decoder.rs:91-105), and every encoder or decoder made
    by [new_index] from a clone of that Arc works on the same table, from any thread.  A thread is
    written as the program of its lock operations and of its accesses to the shared memory between
    them; what it computes by itself in between is one step. *)
From Coq Require Import NArith Bool List.
From Verif Require Import Base M_Std M_Header M_Huffman M_Hpack.
Import ListNotations.
Local Open Scope N_scope.

(** What a thread's calls return: the block of an encode call, the headers of a decode call, the end of
    a change of the maximum. *)
Inductive answer := ABlock (b : bytes) | ARead (r : res (list field)) | ASet.

(** Programs.  [PLook] reads the shared table, [PMod] changes it in place, [PPanicW] is a panic while
    the write guard is held, [PPanic] one without it, [PSpin] an endless loop outside the lock. *)
Inductive prog :=
| PDone
| PPanic
| PPanicW
| PSpin
| PEmit (a : answer) (k : prog)
| PAcqR (k : prog)
| PRelR (k : prog)
| PAcqW (k : prog)
| PRelW (k : prog)
| PLook (k : hindex -> prog)
| PMod (m : hindex -> hindex) (k : prog).

(** What is shared: the table, and the state of its std::sync::RwLock (readers, writer, poisoned);
    and each thread's remaining program and the answers it has had so far. *)
Record sys := mkSys { sh_tab : hindex; sh_readers : N; sh_writer : bool; sh_poison : bool;
                      sh_threads : list (prog * list answer) }.

Definition set_nth {A} (i : nat) (x : A) (l : list A) : list A :=
  firstn i l ++ match skipn i l with [] => [] | _ :: r => x :: r end.
Definition set_thread (s : sys) (i : nat) (t : prog * list answer) : list (prog * list answer) :=
  set_nth i t (sh_threads s).

(** One step of thread [i].  std::sync::RwLock: [read] waits while a writer holds the lock, [write]
    while anyone does; both give an error, on which [unwrap] panics, when the lock is poisoned; a panic
    of the holder of the write guard poisons the lock and releases it.  A step that must wait changes
    nothing. *)
Definition step (i : nat) (s : sys) : sys :=
  match nth_error (sh_threads s) i with
  | None => s
  | Some (p, o) =>
    match p with
    | PDone | PPanic | PSpin => s
    | PPanicW => mkSys (sh_tab s) (sh_readers s) false true (set_thread s i (PPanic, o))
    | PEmit a k => mkSys (sh_tab s) (sh_readers s) (sh_writer s) (sh_poison s) (set_thread s i (k, o ++ [a]))
    | PAcqR k =>
      if sh_writer s then s
      else if sh_poison s
      then mkSys (sh_tab s) (sh_readers s) (sh_writer s) (sh_poison s) (set_thread s i (PPanic, o))
      else mkSys (sh_tab s) (sh_readers s + 1) (sh_writer s) (sh_poison s) (set_thread s i (k, o))
    | PRelR k => mkSys (sh_tab s) (sh_readers s - 1) (sh_writer s) (sh_poison s) (set_thread s i (k, o))
    | PAcqW k =>
      if sh_writer s || negb (sh_readers s =? 0) then s
      else if sh_poison s
      then mkSys (sh_tab s) (sh_readers s) (sh_writer s) (sh_poison s) (set_thread s i (PPanic, o))
      else mkSys (sh_tab s) (sh_readers s) true (sh_poison s) (set_thread s i (k, o))
    | PRelW k => mkSys (sh_tab s) (sh_readers s) false (sh_poison s) (set_thread s i (k, o))
    | PLook k => mkSys (sh_tab s) (sh_readers s) (sh_writer s) (sh_poison s) (set_thread s i (k (sh_tab s), o))
    | PMod m k => mkSys (m (sh_tab s)) (sh_readers s) (sh_writer s) (sh_poison s) (set_thread s i (k, o))
    end
  end.

(** A schedule names the thread that makes each step. *)
Definition run (sched : list nat) (s : sys) : sys := fold_left (fun s i => step i s) sched s.

(** ** The table's own methods, store by store *)

(** header_index.rs:136-151 consolidate_table, under the write guard, which is released at its end.
    The fuel is one more than the number of entries, as in M_Hpack. *)
Fixpoint evict_prog (fuel : nat) (k : prog) : prog :=
  match fuel with
  | O => PPanicW
  | S n =>
    PLook (fun t =>
      if hi_max t <? hi_size t then
        match back (hi_table t) with
        | None => PPanicW
        | Some e =>
          if hi_size t <? entry_size e then PPanicW
          else PMod (fun t => mkIdx (hi_table t) (hi_size t - entry_size e) (hi_max t))
              (PMod (fun t => mkIdx (removelast (hi_table t)) (hi_size t) (hi_max t))
              (evict_prog n k))
        end
      else PRelW k)
  end.

(** header_index.rs:123-131 add_header in [self.index.write().unwrap().add_header(..)] *)
Definition add_prog (f : field) (k : prog) : prog :=
  PAcqW (PMod (fun t => mkIdx (hi_table t) (hi_size t + entry_size f) (hi_max t))
        (PMod (fun t => mkIdx (f :: hi_table t) (hi_size t) (hi_max t))
        (PLook (fun t => evict_prog (S (length (hi_table t))) k)))).

(** header_index.rs:112-116 set_max_table_size in [index.write().unwrap().set_max_table_size(m)] *)
Definition max_prog (m : N) (k : prog) : prog :=
  PAcqW (PMod (fun t => mkIdx (hi_table t) (hi_size t) m)
        (PLook (fun t => evict_prog (S (length (hi_table t))) k))).

(** [self.index.read().unwrap().find_header(header)] in its own block (encoder.rs:70) *)
Definition find_prog (f : field) (k : option (N * bool) -> prog) : prog :=
  PAcqR (PLook (fun t => PRelR (k (find_header t f)))).

(** ** Encoders *)

(** The end of a computation without locks: an error ends the call, a panic the thread. *)
Definition plift {A} (r : res A) (kok : A -> prog) (kerr : werr -> prog) : prog :=
  match r with Ok a => kok a | Err e => kerr e | Panic => PPanic | Diverge => PSpin end.

(** encoder.rs:65-92 encode_header_into (its io errors never happen and would end the thread, as they
    do in [encode]'s unwrap, encoder.rs:47); [k] gets the octets written. *)
Definition enc_header_prog (f : field) (k : bytes -> prog) : prog :=
  find_prog f (fun r =>
    match r with
    | None => plift (encode_literal f true) (fun b => add_prog f (k b)) (fun _ => PPanic)
    | Some (i, false) => plift (encode_indexed_name i (snd f) true) (fun b => add_prog f (k b)) (fun _ => PPanic)
    | Some (i, true) => k (encode_indexed i)
    end).

(** encoder.rs:42-63 encode, encode_into: [acc] is the writer *)
Fixpoint enc_prog (l : list field) (acc : bytes) (k : bytes -> prog) : prog :=
  match l with
  | [] => k acc
  | f :: l' => enc_header_prog f (fun b => enc_prog l' (acc ++ b) k)
  end.

(** ** Decoders *)

(** decoder.rs:266-297 decode_literal and 312-323 get_from_table: the read guard is held only while an
    indexed name is fetched *)
Definition dec_literal_prog (buf : bytes) (index : bool) (kok : field * N -> prog) (kerr : werr -> prog) : prog :=
  plift (decode_integer buf (if index then 6 else 4)) (fun ic =>
    let value name consumed :=
      plift (rest <- slice_from buf consumed ;; ' (v, k) <- decode_string rest ;; Ok ((name, v), consumed + k))
        kok kerr in
    if fst ic =? 0 then
      plift (rest <- slice_from buf (snd ic) ;; ' (n, k) <- decode_string rest ;; Ok (name_from_bytes n, snd ic + k))
        (fun nc => value (fst nc) (snd nc)) kerr
    else
      PAcqR (PLook (fun t => PRelR (plift (get_from_table t (fst ic)) (fun f => value (fst f) (snd ic)) kerr)))) kerr.

(** decoder.rs:115-175 decode_with_cb, with decode_indexed (299-310) inlined: there, unlike for
    literals, the callback [cb] runs while the read guard is held.  [k] gets what the call returns. *)
Fixpoint dec_prog (cb : field -> prog -> prog) (fuel : nat) (buf : bytes) (acc : list field)
    (k : res (list field) -> prog) : prog :=
  match fuel with
  | O => PSpin
  | S n =>
    match buf with
    | [] => k (Ok acc)
    | _ =>
      match representation_of (hd 0 buf) with
      | RIndexed =>
        PAcqR (PLook (fun t =>
          match get_from_table t (N.land (hd 0 buf) 127) with
          | Ok f => cb f (PRelR (dec_prog cb n (skipn 1 buf) (acc ++ [f]) k))
          | Err e => PRelR (k (Err e))
          | _ => PRelR PPanic
          end))
      | RIncremental =>
        dec_literal_prog buf true
          (fun fk => cb (fst fk) (add_prog (fst fk) (dec_prog cb n (skipn (N.to_nat (snd fk)) buf) (acc ++ [fst fk]) k)))
          (fun e => k (Err e))
      | RWithout | RNever =>
        dec_literal_prog buf false
          (fun fk => cb (fst fk) (dec_prog cb n (skipn (N.to_nat (snd fk)) buf) (acc ++ [fst fk]) k))
          (fun e => k (Err e))
      | RSizeUpdate => PSpin
      end
    end
  end.

(** ** Threads: the calls they make, in order *)
Inductive call := CEncode (fs : list field) | CDecode (b : bytes) | CMax (m : N).

(** encoder.rs:42-49 encode; decoder.rs:107-113 decode, whose callback only pushes to a local vector *)
Definition call_prog (c : call) (k : prog) : prog :=
  match c with
  | CEncode fs => enc_prog fs [] (fun b => PEmit (ABlock b) k)
  | CDecode b => dec_prog (fun _ k => k) (S (length b)) b [] (fun r => PEmit (ARead r) k)
  | CMax m => max_prog m (PEmit ASet k)
  end.
Definition thread_prog (l : list call) : prog := fold_right call_prog PDone l.

(** encoder.rs:35-40, decoder.rs:103-105: threads made around one new table with maximum [m] *)
Definition start (m : N) (scripts : list (list call)) : sys :=
  mkSys (hi_with_size m) 0 false false (map (fun l => (thread_prog l, [])) scripts).
