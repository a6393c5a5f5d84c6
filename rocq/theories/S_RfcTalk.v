(** What one side of a WebSocket connection writes, as RFC 6455 has it (C119). *)
From Coq Require Import NArith Bool List.
From Verif Require Import Base S_Utf8 M_Ws S_Ws S_WsApi S_Rfc6455.
Import ListNotations.
Local Open Scope N_scope.

(** Things written one after another, each with the key that it was given. *)
Definition written_all (ds : list (dfable * option mkey)) (b : bytes) : Prop :=
  exists bs, Forall2 (fun d x => write_to (fst d) (snd d) = Ok x) ds bs /\ b = concat bs.
(** What the types of the crate allow: a payload of the length that is claimed, below 2^64, and keys of four octets. *)
Definition talk_typed (d : dfable * option mkey) : Prop :=
  df_size (fst d) = blen (concat (df_chunks (fst d))) /\ df_size (fst d) < 2 ^ 64 /\ key_ok (snd d).

(** [b] is what a client, or a server, may say to tell the messages [ms]. *)
Definition may_say (client : bool) (b : bytes) (ms : list owned) : Prop := exists fs, b = wframes_octets fs /\ rfc_said client fs ms.

(** The frame that an object stands for. *)
Definition wf_of (d : dfable * option mkey) : wframe := mkWF (df_last (fst d)) (df_opcode (fst d)) (snd d) (concat (df_chunks (fst d))).

(** The values of the type OwnedMessage: texts are UTF-8, codes 16-bit numbers. *)
Definition owned_typed (m : owned) : Prop :=
  match m with
  | OwText s => is_utf8 s
  | OwClose (Some c) => cd_code c < 65536 /\ is_utf8 (cd_reason c)
  | _ => True
  end.
Definition owned_data (m : owned) : bytes :=
  match m with
  | OwText s | OwBinary s | OwPing s | OwPong s => s
  | OwClose (Some c) => [cd_code c / 256; cd_code c mod 256] ++ cd_reason c
  | OwClose None => []
  end.
Definition own_keys (client : bool) (keys : list (option mkey)) : Prop := Forall (fun k => if client then k <> None else k = None) keys.
