(** Specification for C97: the two tables of a header map are independent; what each holds after some calls. *)
From Coq Require Import Ascii String NArith ZArith Bool List.
From Verif Require Import Base M_Header M_Full.
Import ListNotations.
Local Open Scope N_scope.

(** The value given last to the application's key [k]. *)
Definition given (k : bytes) (before : option bytes) (cs : list fm_call) : option bytes :=
  fold_left (fun o c => match c with FSystem k' v => if beq k' k then Some v else o | _ => o end) cs before.
(** The calls that concern the fields. *)
Definition field_call (c : fm_call) : bool := match c with FSystem _ _ => false | _ => true end.
(** Lists of fields that are equal one by one: the names as names, the values as octets. *)
Definition same_fields (a b : headers) : Prop := Forall2 (fun x y => name_eq (fst x) (fst y) = true /\ snd x = snd y) a b.
