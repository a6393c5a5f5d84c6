(** Where a sender's dynamic table finds a field again (C31): what the table becomes with every field sent,
    and when a field is near enough to be referred to by an index of one octet. *)
From Coq Require Import Ascii String NArith Bool List.
From Verif Require Import Base S_Huffman M_Hpack S_Hpack S_HpackApi.
Import ListNotations.
Local Open Scope N_scope.

(** RFC 7541 Appendix A, except that the code's entry 15 is called "accept-". *)
Definition code_static : list hfield :=
  map rfc_entry (map (fun e => if String.eqb (fst e) "accept-charset" then ("accept-"%string, snd e) else e) rfc_static).
Definition same_field (a b : hfield) : bool := beq (map lower_ascii (fst a)) (map lower_ascii (fst b)) && beq (snd a) (snd b).
Definition static_name (f : hfield) : bool := existsb (fun e => beq (fst e) (map lower_ascii (fst f))) code_static.
Definition static_entry (f : hfield) : bool := existsb (fun e => same_field e f) code_static.

(** Sending [f]: a field with a name of the static table is either an entry of it or is added to the
    dynamic table, even when it is there already; another field is added unless it is there already. *)
Definition after_field (max : N) (d : list hfield) (f : hfield) : list hfield :=
  if static_entry f then d
  else if negb (static_name f) && existsb (fun e => same_field e f) d then d
  else rfc_add max d f.
Definition after_event (s : N * list hfield) (e : hevent) : N * list hfield :=
  match e with
  | EvBlock fs => (fst s, fold_left (after_field (fst s)) fs (snd s))
  | EvMax m => (m, newest m (snd s))
  end.
Definition after_events (m : N) (l : list hevent) : N * list hfield := fold_left after_event l (m, []).

(** The newest 65 entries have the indices 62 to 126. *)
Definition near (d : list hfield) (f : hfield) : Prop :=
  static_name f = true \/ (forall e, In e d -> same_field e f = false) \/
  exists e, In e (firstn 65 d) /\ same_field e f = true.

(** Every field of a history is near when it is sent. *)
Fixpoint near_block (max : N) (d : list hfield) (fs : list hfield) : Prop :=
  match fs with
  | [] => True
  | f :: fs' => near d f /\ near_block max (after_field max d f) fs'
  end.
Fixpoint near_from (s : N * list hfield) (l : list hevent) : Prop :=
  match l with
  | [] => True
  | e :: l' => match e with EvBlock fs => near_block (fst s) (snd s) fs | EvMax _ => True end /\ near_from (after_event s e) l'
  end.
Definition all_near (m : N) (l : list hevent) : Prop := near_from (m, []) l.

(** The sender on its own. *)
Fixpoint sender (t : hindex) (l : list hevent) : res hindex :=
  match l with
  | [] => Ok t
  | EvBlock fs :: l' => ' (t', _) <- encode_headers t fs ;; sender t' l'
  | EvMax m :: l' => t' <- set_max_table_size t m ;; sender t' l'
  end.
