(** Receiving over a network, where octets arrive in packets of any size (C134). *)
From Coq Require Import Ascii String NArith ZArith Bool List.
From Verif Require Import Base M_Header M_Url M_Http1 S_Http1Api S_Stream M_Ws M_Hpack M_Frame M_H2 S_H2Api.
Import ListNotations.
Local Open Scope N_scope.

(** What an attempt to read from the octets that have arrived gives: not enough of them, something (with the state of the connection after it
    and the octets that are left), or an end of the connection. *)
Inductive attempt (S A : Type) := Wait | Give (s : S) (a : A) (rest : bytes) | Stop (r : res unit).
Arguments Wait {S A}. Arguments Give {S A}. Arguments Stop {S A}.
Inductive status (S : Type) := Open (s : S) (kept : bytes) | Closed (r : res unit).
Arguments Open {S}. Arguments Closed {S}.
(** The receiver reads as long as there is something to read, ... *)
Fixpoint drain {S A} (step : S -> bytes -> attempt S A) (fuel : nat) (s : S) (l : bytes) : list A * status S :=
  match fuel with
  | O => ([], Open s l)
  | Datatypes.S k =>
    match step s l with
    | Wait => ([], Open s l)
    | Give s' a r => let (got, st) := drain step k s' r in (a :: got, st)
    | Stop e => ([], Closed e)
    end
  end.
Definition all {S A} (step : S -> bytes -> attempt S A) (s : S) (l : bytes) : list A * status S := drain step (Datatypes.S (length l)) s l.
(** ... after each packet, which is put behind what was kept. *)
Fixpoint feed {S A} (step : S -> bytes -> attempt S A) (st : status S) (ps : list bytes) : list A * status S :=
  match ps with
  | [] => ([], st)
  | p :: ps' =>
    match st with
    | Closed e => ([], st)
    | Open s kept => let (got, st1) := all step s (kept ++ p) in let (more, st2) := feed step st1 ps' in (got ++ more, st2)
    end
  end.

(** HTTP/1 (with a new object for each attempt; C59: with a used one it is the same), ... *)
Definition message_step {A} (parse : bytes -> res (A * N)) (header : A -> headers) (_ : unit) (l : bytes) : attempt unit (A * bytes) :=
  match read_message parse header l with
  | Ok (a, b, r) => Give tt (a, b) r
  | Err (EHttp Partial) => Wait
  | Err e => Stop (Err e)
  | Panic => Stop Panic
  | Diverge => Stop Diverge
  end.
Definition request_step := message_step parse_request q_header.
Definition response_step := message_step parse_response p_header.
(** WebSocket, with or without a limit, ... *)
Definition frame_step (limit : option N) (_ : unit) (l : bytes) : attempt unit dataframe :=
  match match limit with Some n => read_dataframe_with_limit n l | None => read_dataframe l end with
  | Ok (d, r) => Give tt d r
  | Err (EIo UnexpectedEof) => Wait
  | Err e => Stop (Err e)
  | Panic => Stop Panic
  | Diverge => Stop Diverge
  end.
(** and HTTP/2, with the table of the decoder for a state, when a frame is complete (exactly then the reader does not answer Short, C102). *)
Definition complete_frame (l : bytes) : bool :=
  if blen l <? 9 then false
  else match fh_parse l with Ok (h, r) => match take_N (fh_length h) r with Some _ => true | None => false end | _ => true end.
Definition h2_step (L : N) (t : hindex) (l : bytes) : attempt hindex frame :=
  if complete_frame l then
    match recv t L l with
    | (t', Ok (f, r)) => Give t' f r
    | (_, Err e) => Stop (Err e)
    | (_, Panic) => Stop Panic
    | (_, Diverge) => Stop Diverge
    end
  else Wait.
