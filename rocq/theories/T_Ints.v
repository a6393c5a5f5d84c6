(** C88, continued: how header values in their two forms are made and read as integers. *)
From Coq Require Import Ascii String NArith ZArith Lia Bool List ZifyBool ZifyNat ZifyN.
From Verif Require Import Base S_Utf8 P_Base M_Std M_Helper M_Header S_Http1 S_Http1Api S_Map T_Header M_Value S_Value.
Import ListNotations.
Local Open Scope N_scope.

(** An owned value is read by the crate's own loop: digits only (also none) for an unsigned number, digits and minus signs for a signed one.
    A literal is read by Rust's integer parser: a numeral, with a plus sign or not (or a minus sign, if signed). *)
Theorem C88_integers : forall v,
  (forall n, hv_usize v = Ok n <->
     match v with
     | VValue l => Forall digit l /\ n = num_of l /\ n < 2 ^ 64
     | VStand s => (decimal s n \/ exists w, s = 43 :: w /\ decimal w n) /\ n < 2 ^ 64
     end) /\
  (forall z, hv_isize v = Ok z <->
     match v with
     | VValue l => lax_signed l z /\ (- 2 ^ 63 < z < 2 ^ 63)%Z
     | VStand s => std_signed s z /\ (- 2 ^ 63 <= z < 2 ^ 63)%Z
     end).
Proof.
  intros [s|l]; (split; [intros n|intros z]).
  - apply (proj1 (C18_literals_exact s)).
  - apply (proj2 (C18_literals_exact s)).
  - apply C18_usize_exact.
  - apply C17_value_exact.
Qed.
Print Assumptions C88_integers.
(** What a value is made of is what it holds, and only what is given as a static text is a literal; numbers are held as their numerals. *)
Theorem C88_constructors : forall (s : bytes) (n : N) (z : Z),
  value_of (hv_from_static s) = s /\ value_of (hv_from_bytes s) = s /\ value_of (hv_from_cow s) = s /\ value_of (hv_of_str s) = s /\ value_of (hv_of_string s) = s /\
  (exists l, hv_from_static s = VStand l) /\ (exists l, hv_of_str s = VStand l) /\
  (exists l, hv_from_bytes s = VValue l) /\ (exists l, hv_from_cow s = VValue l) /\ (exists l, hv_of_string s = VValue l) /\
  decimal (value_of (hv_of_usize n)) n /\ (n < 2 ^ 64 -> hv_usize (hv_of_usize n) = Ok n) /\
  ((- 2 ^ 63 < z < 2 ^ 63)%Z -> hv_isize (hv_of_isize z) = Ok z) /\
  (forall l, value_of (VStand l) = value_of (VValue l)).
Proof.
  intros s n z. repeat (split; [first [reflexivity|eexists; reflexivity]|]). split; [apply C18_written|].
  split; [intros L; apply (C18_usize n L)|]. split; [intros L; apply (C18_isize_partial z L)|]. reflexivity.
Qed.
Print Assumptions C88_constructors.
(** Names likewise. *)
Theorem C88_name_constructors : forall s, hn_of_str s = NStand s /\ hn_of_string s = NValue s /\ hn_name (hn_of_str s) = s /\ hn_name (hn_of_string s) = s /\
  forall n, hn_name n = name_of n /\ hn_as_bytes n = name_of n /\ hn_encode n = name_of n /\ hn_display n = name_of n /\ hn_bytes_len n = blen (name_of n).
Proof. intros s. do 4 (split; [reflexivity|]). intros [l|l]; repeat split. Qed.
Print Assumptions C88_name_constructors.
Example C88_integers_case : hv_usize (VStand (str "+7")) = Ok 7 /\ hv_usize (VValue (str "+7")) = Err EInto /\ hv_usize (VValue []) = Ok 0 /\
  hv_isize (VStand (str "-7")) = Ok (-7)%Z /\ hv_isize (VValue (str "-7")) = Ok (-7)%Z /\ hv_of_usize 70 = VValue (str "70").
Proof. vm_compute. repeat split. Qed.
