(** The named header fields and what they stand for in a map (C136). *)
From Coq Require Import Ascii String NArith Bool List.
From Verif Require Import Base M_Header S_Http1 S_Http1Api S_Map M_Value M_Names.
Import ListNotations.
Local Open Scope N_scope.

(** The field that the identifier of a constant spells: lower case, with '-' for '_'. *)
Definition spelled (k : string) : bytes := map (fun b => if b =? 95 then 45 else fold_byte b) (str k).
(** The octets of a constant. *)
Definition a_constant (c : bytes) : Prop := exists k, named k = Some (NStand c).
(** A field name is taken for [c] in a map: the same letters in any case, but for a '-' also an 'M'. *)
Definition taken_for (n c : bytes) : Prop := Forall2 (fun x y => fold_byte x = y \/ x = 77 /\ y = 45) n c.

(** One constant seen as a variable that calls read and write; calls for other constants do not concern it. *)
Definition reg_step (c : bytes) (o : option bytes) (op : hop) : option bytes :=
  match op with
  | HInsert n v | HSet n v => if beq n c then Some v else o
  | HPush n v => if beq n c then Some (match o with Some w => w ++ [59] ++ v | None => v end) else o
  | HRemove n => if beq n c then None else o
  | HClear => None
  end.
(** Calls on a map that is already there. *)
Definition calls (h : headers) (ops : list hop) : res headers := fold_left (fun r o => h <- r ;; hop_run h o) ops (Ok h).
(** No constant finds two entries of the map. *)
Definition single (h : headers) : Prop := forall c a m b, a_constant c -> h = a ++ m :: b -> name_eq (fst m) c = true ->
  Forall (fun nv => name_eq (fst nv) c = false) b.
