(** Sending over a network that delivers octets in order, in packets of any size, and that may fail at any point (C135). *)
From Coq Require Import NArith Bool List.
From Verif Require Import Base M_Ws S_WsTalk S_Packets.
Import ListNotations.
Local Open Scope N_scope.

(** The octets [w] carry [got] to a receiver in state [s], whose state is [s'] then.
    As long as octets are missing: the connection is open, what was delivered is the beginning of [got], and not all of it.
    When all octets are there: all of [got] was delivered and nothing is kept.
    When others follow: all of [got] was delivered, and the receiver goes on with them as one that starts in [s']. *)
Record carries {S A} (step : S -> bytes -> attempt S A) (s : S) (w : bytes) (got : list A) (s' : S) : Prop := mkCarries {
  ca_cut : forall ps missing, concat ps ++ missing = w -> missing <> [] ->
    exists some later s1 kept, feed step (Open s []) ps = (some, Open s1 kept) /\ got = some ++ later /\ later <> [];
  ca_all : forall ps, concat ps = w -> feed step (Open s []) ps = (got, Open s' []);
  ca_more : forall ps x, concat ps = w ++ x -> bytes_ok x ->
    fst (feed step (Open s []) ps) = got ++ fst (feed step (Open s' []) [x]) /\ snd (feed step (Open s []) ps) = snd (feed step (Open s' []) [x]) }.

(** WebSocket messages: frames are read as they come, and the messages that each completes are delivered; the frames of an incomplete message are the state. *)
Definition talk_step (limit : option N) (pending : list dataframe) (l : bytes) : attempt (list dataframe) (list owned) :=
  match frame_step limit tt l with
  | Wait => Wait
  | Stop e => Stop e
  | Give _ d r =>
    match ws_take pending d with
    | Ok (ms, pending') => Give pending' ms r
    | Err e => Stop (Err e)
    | Panic => Stop Panic
    | Diverge => Stop Diverge
    end
  end.
