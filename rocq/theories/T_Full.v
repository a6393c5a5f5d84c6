(** C97: the application's entries of a header map. *)
From Coq Require Import Ascii String NArith ZArith Bool List.
From Verif Require Import Base P_Base M_Std M_Helper M_Header M_Build M_Full S_Http1 S_Full P_Header P_Http1 P_Map P_Full.
Import ListNotations.
Local Open Scope N_scope.

(** After any calls, each key has the value given to it last, and no other call matters for it. *)
Theorem C97_last_value : forall cs k, fm_system_get (fm_run fm_new cs) k = given k None cs.
Proof. intros cs k. exact (run_systems cs fm_new k). Qed.
Print Assumptions C97_last_value.
(** The fields, and with them everything that is sent, shown or counted, are what they would be without the entries. *)
Theorem C97_fields : forall m cs, let m' := fm_run m cs in let n := fm_run m (filter field_call cs) in
  fm_fields m' = fm_fields n /\ fm_encode m' = fm_encode n /\ fm_display m' = fm_display n /\
  fm_len m' = fm_len n /\ fm_is_empty m' = fm_is_empty n /\ fm_into_iter m' = fm_into_iter n.
Proof.
  intros m cs. cbv zeta. unfold fm_encode, fm_display, fm_is_empty, fm_len, fm_into_iter. rewrite (run_fields_only cs m).
  repeat split.
Qed.
Print Assumptions C97_fields.
Theorem C97_empty : forall m, fm_is_empty m = true <-> fm_fields m = [].
Proof.
  intros m. unfold fm_is_empty, fm_len. rewrite N.eqb_eq. destruct (fm_fields m); cbn; split; intros H; try reflexivity; discriminate.
Qed.
Print Assumptions C97_empty.
(** Two maps are equal when their fields are, one by one and in order, and every key has the same value in both. *)
Theorem C97_equality : forall cs ds, let a := fm_run fm_new cs in let b := fm_run fm_new ds in
  fm_eqb a b = true <-> same_fields (fm_fields a) (fm_fields b) /\ forall k, fm_system_get a k = fm_system_get b k.
Proof.
  intros cs ds. cbv zeta. unfold fm_eqb. rewrite andb_true_iff, fields_eqb_ok, sys_eqb_ok; [reflexivity| |]; apply run_distinct; constructor.
Qed.
Print Assumptions C97_equality.
(** A map equals its clone. *)
Theorem C97_clone : forall cs, let a := fm_run fm_new cs in fm_clone a = a /\ fm_eqb (fm_clone a) a = true.
Proof.
  intros cs. cbv zeta. assert (E : fm_clone (fm_run fm_new cs) = fm_run fm_new cs) by (destruct (fm_run fm_new cs); reflexivity).
  split; [exact E|]. rewrite E. apply (proj2 (C97_equality cs cs)). split; [|reflexivity].
  unfold same_fields. induction (fm_fields (fm_run fm_new cs)) as [|x l IH]; constructor; [|exact IH].
  split; [apply name_eq_refl|reflexivity].
Qed.
Print Assumptions C97_clone.
(** Refuted: [clear] leaves the application's entries, so a cleared map need not equal a new one. *)
Theorem C97_clear_refuted : exists cs, let m := fm_run fm_new (cs ++ [FClear]) in
  fm_is_empty m = true /\ fm_system_get m (str "k") = Some (str "v") /\ fm_eqb m fm_new = false.
Proof. exists [FInsert (str "a") (str "b"); FSystem (str "k") (str "v")]. vm_compute. auto. Qed.
Print Assumptions C97_clear_refuted.
(** Refuted: maps that send different octets are equal, and equality is not transitive. *)
Theorem C97_transitive_refuted : exists a b c, fm_eqb a b = true /\ fm_eqb b c = true /\ fm_eqb a c = false /\ fm_encode a <> fm_encode b.
Proof.
  exists (fm_run fm_new [FInsert (str "x-1") []]), (fm_run fm_new [FInsert (str "x-Q") []]), (fm_run fm_new [FInsert (str "x-q") []]).
  split; [vm_compute; reflexivity|]. split; [vm_compute; reflexivity|]. split; [vm_compute; reflexivity|]. vm_compute. discriminate.
Qed.
Print Assumptions C97_transitive_refuted.
Example C97_nonvacuous :
  let cs := [FSystem (str "a") (str "1"); FInsert (str "A") (str "x"); FSystem (str "b") (str "2"); FClear; FSystem (str "a") (str "3"); FPush (str "C") (str "d")] in
  let ds := [FSystem (str "b") (str "2"); FInsert (str "c") (str "d"); FSystem (str "a") (str "3")] in
  given (str "a") None cs = Some (str "3") /\ given (str "A") None cs = None /\ given (str "b") None cs = Some (str "2") /\
  fm_eqb (fm_run fm_new cs) (fm_run fm_new ds) = true /\ fm_encode (fm_run fm_new cs) = str "C: d" ++ [13; 10; 13; 10].
Proof. vm_compute. auto. Qed.
