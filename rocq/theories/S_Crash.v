(** What a peer can send to stop a receiver (C137). *)
From Coq Require Import Ascii String NArith ZArith Bool List.
From Verif Require Import Base M_Header M_Http1 S_Http1 S_Http1Api S_Map S_Hex S_Stream S_Reject S_Packets.
Import ListNotations.
Local Open Scope N_scope.

(** The receiver in state [s] delivers [got] from the front of [l]; its state is [s'] then, and the octets [r] come next. *)
Inductive delivers {S A} (step : S -> bytes -> attempt S A) : S -> bytes -> list A -> S -> bytes -> Prop :=
| dl_none s l : delivers step s l [] s l
| dl_more s l s1 a r got s2 r2 : step s l = Give s1 a r -> delivers step s1 r got s2 r2 -> delivers step s l (a :: got) s2 r2.

(** Whole chunks that are not empty, and what comes next. *)
Inductive chunks_then : bytes -> bytes -> Prop :=
| ct_here l : chunks_then l l
| ct_more line d e l r : size_line line (blen d) -> d <> [] -> blen d + 2 < 2 ^ 64 -> length e = 2%nat -> chunks_then l r -> chunks_then (line ++ d ++ e ++ l) r.
(** Bodies that stop the process: a content-length one of whose beginnings is 2^63 or 2^63 + 1 (with any minus signs), or a chunk size of 2^64 - 2 or more. *)
Inductive body_crash (h : headers) (l : bytes) : Prop :=
| bc_length v p z q : hm_is_chunked h = false -> hm_get h (str "content-length") = Some v -> v = p ++ q -> lax_signed p z -> (2 ^ 63 <= Z.abs z <= 2 ^ 63 + 1)%Z -> body_crash h l
| bc_chunk r : hm_is_chunked h = true -> chunks_then l r -> chunk_crash r -> body_crash h l.
