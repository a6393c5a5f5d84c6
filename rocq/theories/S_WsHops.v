(** WebSocket connections through any number of intermediaries (C131). *)
From Coq Require Import NArith Bool List.
From Verif Require Import Base S_Utf8 M_Ws S_Ws S_WsApi S_WsTalk S_Rfc6455 S_RfcTalk S_RfcCarry.
Import ListNotations.
Local Open Scope N_scope.

(** An intermediary receives whole messages, or single frames, and sends them on; for the n-th one it takes a key, or none. *)
Inductive ws_part := ByMessages | ByFrames.
Definition ws_hop : Type := ws_part * (nat -> option mkey).
Definition hop_keys (h : ws_hop) : Prop := forall i, key_ok (snd h i).
Definition keys_for (h : ws_hop) (n : nat) : list (option mkey) := map (snd h) (seq 0 n).
(** What a receiver takes from all octets of a connection. *)
Definition tells (l : bytes) (ms : list owned) : Prop := exists k, ws_receive k [] l = Ok (ms, [], []).
Definition frames_told (l : bytes) (ds : list dataframe) : Prop := exists k, read_frames k l = Ok (ds, []).
Definition sent_on (h : ws_hop) (l b : bytes) : Prop :=
  match fst h with
  | ByMessages => exists ms, tells l ms /\ messages_written ms (keys_for h (length ms)) b
  | ByFrames => exists ds, frames_told l ds /\ frames_written_on ds (keys_for h (length ds)) b
  end.
(** From the first octets to the last ones, over a row of intermediaries. *)
Inductive sent_over : list ws_hop -> bytes -> bytes -> Prop :=
| so_none l : sent_over [] l l
| so_hop h hs l m b : sent_on h l m -> sent_over hs m b -> sent_over (h :: hs) l b.
