(** The observable protocol runs that C29-C31 quantify over: histories of one table, and an encoder and
    a decoder exchanging header blocks. *)
From Coq Require Import NArith Bool List.
From Verif Require Import Base S_Http1 S_Map M_Hpack S_Hpack.
Import ListNotations.
Local Open Scope N_scope.

(** ** Histories of a dynamic table *)
Inductive tevent := TAdd (f : hfield) | TMax (m : N).
Definition t_step (r : res hindex) (e : tevent) : res hindex :=
  t <- r ;; match e with TAdd f => add_header t f | TMax m => set_max_table_size t m end.
Definition t_run (max : N) (l : list tevent) : res hindex := fold_left t_step l (Ok (hi_with_size max)).

(** RFC 7541: the maximum and the entries, newest first. *)
Definition rfc_step (s : N * list hfield) (e : tevent) : N * list hfield :=
  match e with
  | TAdd f => (fst s, rfc_add (fst s) (snd s) f)
  | TMax m => (m, newest m (snd s))
  end.
Definition rfc_run (max : N) (l : list tevent) : N * list hfield := fold_left rfc_step l (max, []).

(** ** Encoder and decoder: header blocks sent, and changes of the maximum made on both sides *)
Inductive hevent := EvBlock (fs : list hfield) | EvMax (m : N).
Fixpoint exchange (te td : hindex) (l : list hevent) : res (hindex * hindex * list (list hfield)) :=
  match l with
  | [] => Ok (te, td, [])
  | EvBlock fs :: l' =>
    ' (te', b) <- encode_headers te fs ;;
    let '(td', r) := decode_headers td b in
    got <- r ;;
    ' (te2, td2, rest) <- exchange te' td' l' ;;
    Ok (te2, td2, got :: rest)
  | EvMax m :: l' =>
    te' <- set_max_table_size te m ;;
    td' <- set_max_table_size td m ;;
    exchange te' td' l'
  end.

Fixpoint sent (l : list hevent) : list (list hfield) :=
  match l with
  | [] => []
  | EvBlock fs :: l' => fs :: sent l'
  | EvMax _ :: l' => sent l'
  end.
Fixpoint maxima (l : list hevent) : list N :=
  match l with
  | [] => []
  | EvBlock _ :: l' => maxima l'
  | EvMax m :: l' => m :: maxima l'
  end.

(** A header the API can be given: a name of ASCII characters, a value of octets, both below 64 MiB. *)
Definition sendable (f : hfield) : Prop :=
  Forall (fun b => b < 128) (fst f) /\ bytes_ok (snd f) /\ blen (fst f) < 2 ^ 26 /\ blen (snd f) < 2 ^ 26.

(** Names that HTTP/2 allows: lower-case tokens, possibly starting with ':' (RFC 9113 8.2). *)
Definition h2_char (b : N) : Prop := lower_tchar b \/ b = 58.

(** ** Decoders that API calls can reach: any maximum, changes of it, and blocks decoded so far,
    whatever octets they were and whatever came of them. *)
Inductive decoder_reach : hindex -> Prop :=
| dr_new : forall m, decoder_reach (hi_with_size m)
| dr_max : forall t m t', decoder_reach t -> set_max_table_size t m = Ok t' -> decoder_reach t'
| dr_block : forall t b, decoder_reach t -> decoder_reach (fst (decode_headers t b)).
