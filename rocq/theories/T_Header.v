(** Properties C14-C18: header names, the header map, integers in values. *)
From Coq Require Import Ascii String NArith ZArith Bool List.
From Verif Require Import Base M_Std M_Helper M_Header S_Http1 S_Http1Api S_Map P_Base P_Header P_Http1 P_Msg P_Map.
Import ListNotations.
Local Open Scope N_scope.

(** ** C14: the map.
    On a set of names where the crate's comparison is case-insensitive equality
    any history of calls leads to a map that shows the same entries in the same
    order and answers the same lookups as the abstract one; the value returned
    by a further [remove] is the abstract value too. *)
Theorem C14_map_refines : forall names,
  (forall a b, In a names -> In b names -> (name_eq a b = true <-> fold_name a = fold_name b)) ->
  forall ops, Forall (fun o => Forall (fun n => In n names) (hop_names o)) ops ->
  exists h, hops_run ops = Ok h /\
    map (fun nv => (fst nv, Some (snd nv))) h = a_items (a_run ops) /\
    (forall n, In n names ->
       hm_get h n = a_val (a_run ops) (fold_name n) /\
       hm_contains h n = match a_val (a_run ops) (fold_name n) with Some _ => true | None => false end /\
       hm_get_value h n = match a_val (a_run ops) (fold_name n) with Some v => Ok v | None => Panic end /\
       snd (hm_remove h n) = a_val (a_run ops) (fold_name n)).
Proof. exact map_refines. Qed.
Print Assumptions C14_map_refines.

(** The hypothesis, on the characters: it is enough that no two of the names
    clash. *)
Theorem C14_clash_free_names : forall names,
  (forall a, In a names -> Forall tchar a) -> (forall a b, In a names -> In b names -> clash_free a b) ->
  forall a b, In a names -> In b names -> (name_eq a b = true <-> fold_name a = fold_name b).
Proof. intros names Ht Hc a b Ha Hb. exact (clash_name_iff a b (Ht a Ha) (Ht b Hb) (Hc a b Ha Hb)). Qed.
Print Assumptions C14_clash_free_names.

(** The names of ordinary messages do not clash. *)
Definition usual_names : list bytes := map str
  ["Host"; "HOST"; "Content-Length"; "content-length"; "Content-Type"; "Transfer-Encoding"; "Connection";
   "Accept"; "Accept-Encoding"; "User-Agent"; "Cookie"; "Set-Cookie"; "Upgrade"; "Location"; "Date"; "Server";
   "ETag"; "Cache-Control"; "Sec-WebSocket-Key"; "Sec-WebSocket-Accept"; "X-Forwarded-For"]%string.
Example C14_usual : (forall a, In a usual_names -> Forall tchar a) /\
  (forall a b, In a usual_names -> In b usual_names -> clash_free a b).
Proof.
  split.
  - assert (H : forallb (forallb tcharb) usual_names = true) by (vm_compute; reflexivity).
    intros a Ha. apply tchars_b. exact (proj1 (forallb_forall _ _) H a Ha).
  - assert (H : forallb (fun a => forallb (clash_freeb a) usual_names) usual_names = true) by (vm_compute; reflexivity).
    intros a b Ha Hb. apply clash_freeb_ok. pose proof (proj1 (forallb_forall _ _) H a Ha) as K. cbn beta in K.
    exact (proj1 (forallb_forall _ _) K b Hb).
Qed.
Example C14_history : hops_run
  [HInsert (str "Host") (str "a"); HInsert (str "Content-Type") (str "t"); HInsert (str "hOST") (str "b");
   HPush (str "Cookie") (str "x"); HPush (str "COOKIE") (str "y"); HRemove (str "content-TYPE"); HSet (str "date") (str "d")]
  = Ok [(str "Host", str "b"); (str "Cookie", str "x;y"); (str "date", str "d")].
Proof. vm_compute. reflexivity. Qed.

(** ** C15: case-insensitive comparison.
    Names equal up to case are equal. *)
Theorem C15_ignores_case : forall a b, bytes_ok a -> bytes_ok b -> fold_name a = fold_name b -> name_eq a b = true.
Proof. intros a b Ha Hb H. exact (fold_name_eq a b Ha Hb H). Qed.
Print Assumptions C15_ignores_case.
(** The converse holds for pairs without clashes, in particular when both are
    letters only, or both free of upper-case letters and '^'. *)
Theorem C15_equality_partial : forall a b, Forall tchar a -> Forall tchar b -> clash_free a b ->
  (name_eq a b = true <-> fold_name a = fold_name b).
Proof. exact clash_name_iff. Qed.
Print Assumptions C15_equality_partial.
Theorem C15_letters_partial : forall a b, Forall alpha a -> Forall alpha b ->
  (name_eq a b = true <-> fold_name a = fold_name b).
Proof. exact letters_iff. Qed.
Print Assumptions C15_letters_partial.
Theorem C15_lower_case_partial : forall a b, Forall lower_tchar a -> Forall lower_tchar b ->
  (name_eq a b = true <-> a = b).
Proof. exact lower_iff. Qed.
Print Assumptions C15_lower_case_partial.
(** What the comparison is on all byte strings. *)
Theorem C15_comparison_exact : forall a b, bytes_ok a -> bytes_ok b ->
  (name_eq a b = true <-> Forall2 (fun x y => x = y \/ (x + 32) mod 256 = y \/ (y + 32) mod 256 = x) a b).
Proof. exact name_eq_iff. Qed.
Print Assumptions C15_comparison_exact.
Theorem C15_reflexive_symmetric : forall a b, bytes_ok a -> bytes_ok b ->
  name_eq a a = true /\ name_eq a b = name_eq b a.
Proof. intros a b Ha Hb. split; [exact (name_eq_refl a)|exact (name_eq_sym a b Ha Hb)]. Qed.
Print Assumptions C15_reflexive_symmetric.
(** Different header names that compare equal. *)
Theorem C15_equality_refuted : exists a b, name_ok a /\ name_ok b /\ fold_name a <> fold_name b /\ name_eq a b = true.
Proof.
  exists (str "content-length"), (str "ContentMLength").
  split; [apply name_okb_ok; vm_compute; reflexivity|]. split; [apply name_okb_ok; vm_compute; reflexivity|].
  split; [vm_compute; discriminate|vm_compute; reflexivity].
Qed.
Print Assumptions C15_equality_refuted.
(** The comparison is not transitive. *)
Theorem C15_transitivity_refuted : exists a b c, name_ok a /\ name_ok b /\ name_ok c /\
  name_eq a b = true /\ name_eq b c = true /\ name_eq a c = false.
Proof.
  exists (str "x-1"), (str "x-Q"), (str "x-q").
  do 3 (split; [apply name_okb_ok; vm_compute; reflexivity|]). repeat split; vm_compute; reflexivity.
Qed.
Print Assumptions C15_transitivity_refuted.
Example C15_case : name_eq (str "Content-Length") (str "cONTENT-lENGTH") = true /\ name_eq (str "host") (str "hosts") = false /\
  clash_free (str "Content-Length") (str "cONTENT-lENGTH").
Proof. split; [vm_compute; reflexivity|]. split; [vm_compute; reflexivity|]. apply clash_freeb_ok. vm_compute. reflexivity. Qed.

(** ** C16: hashing.  The hash of a name is that of its folded bytes. *)
Theorem C16_hash_is_folded : forall a, name_hash_input a = fold_name a.
Proof. exact hash_is_fold. Qed.
Print Assumptions C16_hash_is_folded.
Theorem C16_equal_hash_partial : forall a b, Forall tchar a -> Forall tchar b -> clash_free a b ->
  name_eq a b = true -> name_hash_input a = name_hash_input b.
Proof. intros a b Ha Hb C H. rewrite !hash_is_fold. exact (clash_name a b Ha Hb C H). Qed.
Print Assumptions C16_equal_hash_partial.
Theorem C16_equal_hash_refuted : exists a b, name_ok a /\ name_ok b /\ name_eq a b = true /\ name_hash_input a <> name_hash_input b.
Proof.
  exists (str "x-1"), (str "x-Q"). split; [apply name_okb_ok; vm_compute; reflexivity|].
  split; [apply name_okb_ok; vm_compute; reflexivity|]. split; [vm_compute; reflexivity|vm_compute; discriminate].
Qed.
Print Assumptions C16_equal_hash_refuted.
(** Folded names that hash alike are equal: a lookup in a table keyed by names
    finds exactly the entries of the same folded name, when it compares at all. *)
Theorem C16_same_hash_equal : forall a b, bytes_ok a -> bytes_ok b ->
  name_hash_input a = name_hash_input b -> name_eq a b = true.
Proof. intros a b Ha Hb H. rewrite !hash_is_fold in H. exact (fold_name_eq a b Ha Hb H). Qed.
Print Assumptions C16_same_hash_equal.
Example C16_case : name_hash_input (str "Content-MD5") = str "content-md5".
Proof. vm_compute. reflexivity. Qed.

(** ** C17: Content-Length *)
Theorem C17_body_length : forall h v n,
  hm_get h (str "content-length") = Some v -> decimal v n -> n < 2 ^ 63 -> hm_body_len h = Ok (Z.of_N n).
Proof. exact body_len_decimal. Qed.
Print Assumptions C17_body_length.
Theorem C17_no_length : forall h, hm_get h (str "content-length") = None -> hm_body_len h = Ok 0%Z.
Proof. exact body_len_none. Qed.
Print Assumptions C17_no_length.
(** A length other than 0 comes only from a numeral, for values without '-'. *)
Theorem C17_only_numerals_partial : forall h v, hm_get h (str "content-length") = Some v -> ~ In 45 v ->
  forall z, z <> 0%Z -> (hm_body_len h = Ok z <-> exists n, z = Z.of_N n /\ decimal v n /\ n < 2 ^ 63).
Proof. exact body_len_exact. Qed.
Print Assumptions C17_only_numerals_partial.
(** All results, all values. *)
Theorem C17_value_exact : forall v z, value_isize v = Ok z <-> lax_signed v z /\ (- 2 ^ 63 < z < 2 ^ 63)%Z.
Proof. exact isize_exact. Qed.
Print Assumptions C17_value_exact.
(** When it panics: a prefix of the value denotes 2^63 or 2^63 + 1. *)
Theorem C17_panics_exact : forall h, hm_body_len h = Panic <->
  exists v, hm_get h (str "content-length") = Some v /\
    exists p z q, v = p ++ q /\ lax_signed p z /\ (2 ^ 63 <= Z.abs z <= 2 ^ 63 + 1)%Z.
Proof. exact body_len_panic. Qed.
Print Assumptions C17_panics_exact.
(** The header is found under any spelling of its name, when no other name in
    the list clashes with it. *)
Theorem C17_found_partial : forall h,
  Forall (fun nv => Forall tchar (fst nv) /\ clash_free (fst nv) (str "content-length")) h ->
  hm_get h (str "content-length") =
    option_map snd (find (fun nv => beq (fold_name (fst nv)) (str "content-length")) h).
Proof. exact content_length_found. Qed.
Print Assumptions C17_found_partial.
Theorem C17_crash_refuted : exists h, fields_ok h /\ hm_body_len h = Panic.
Proof.
  exists [(str "Content-Length", str "9223372036854775808")]. split; [apply fields_okb_ok; vm_compute; reflexivity|].
  vm_compute. reflexivity.
Qed.
Print Assumptions C17_crash_refuted.
Theorem C17_not_numeral_refuted : exists h, fields_ok h /\ hm_body_len h = Ok (- 5)%Z.
Proof.
  exists [(str "Content-Length", str "0--5")]. split; [apply fields_okb_ok; vm_compute; reflexivity|].
  vm_compute. reflexivity.
Qed.
Print Assumptions C17_not_numeral_refuted.
Theorem C17_other_header_refuted : exists h, fields_ok h /\
  Forall (fun nv => fold_name (fst nv) <> str "content-length") h /\ hm_body_len h = Ok 7%Z.
Proof.
  exists [(str "ContentMLength", str "7")]. split; [apply fields_okb_ok; vm_compute; reflexivity|].
  split; [constructor; [vm_compute; discriminate|constructor]|vm_compute; reflexivity].
Qed.
Print Assumptions C17_other_header_refuted.
Example C17_case : hm_body_len [(str "Host", str "h"); (str "CONTENT-LENGTH", str "00512")] = Ok 512%Z /\
  hm_body_len [(str "Content-Length", str "12a")] = Ok 0%Z.
Proof. split; vm_compute; reflexivity. Qed.

(** ** C18: integers round-trip. *)
Theorem C18_usize : forall n, n < 2 ^ 64 ->
  value_usize (value_of_usize n) = Ok n /\ value_usize_stand (value_of_usize n) = Ok n.
Proof. intros n H. split; [exact (usize_roundtrip n H)|exact (usize_stand_roundtrip n H)]. Qed.
Print Assumptions C18_usize.
Theorem C18_isize_partial : forall z, (- 2 ^ 63 < z < 2 ^ 63)%Z -> value_isize (value_of_isize z) = Ok z.
Proof. exact isize_roundtrip. Qed.
Print Assumptions C18_isize_partial.
Theorem C18_isize_min_refuted : exists z, (- 2 ^ 63 <= z < 2 ^ 63)%Z /\ value_isize (value_of_isize z) = Panic.
Proof. exists (- 2 ^ 63)%Z. split; [split; [discriminate|reflexivity]|vm_compute; reflexivity]. Qed.
Print Assumptions C18_isize_min_refuted.
(** A value made from a string literal is read by the standard parser. *)
Theorem C18_isize_literal : forall z, (- 2 ^ 63 <= z < 2 ^ 63)%Z -> value_isize_stand (value_of_isize z) = Ok z.
Proof. exact isize_stand_roundtrip. Qed.
Print Assumptions C18_isize_literal.
(** What is read, exactly. *)
Theorem C18_usize_exact : forall v n, value_usize v = Ok n <-> Forall digit v /\ n = num_of v /\ n < 2 ^ 64.
Proof. exact usize_exact. Qed.
Print Assumptions C18_usize_exact.
Theorem C18_usize_panics : forall v, value_usize v = Panic <->
  exists p q, v = p ++ q /\ Forall digit p /\ 2 ^ 64 <= num_of p <= 2 ^ 64 + 3.
Proof. exact usize_panic. Qed.
Print Assumptions C18_usize_panics.
Theorem C18_literals_exact : forall v,
  (forall n, value_usize_stand v = Ok n <-> (decimal v n \/ exists w, v = 43 :: w /\ decimal w n) /\ n < 2 ^ 64) /\
  (forall z, value_isize_stand v = Ok z <-> std_signed v z /\ (- 2 ^ 63 <= z < 2 ^ 63)%Z).
Proof. intros v. split; [exact (usize_stand_exact v)|exact (isize_stand_exact v)]. Qed.
Print Assumptions C18_literals_exact.
(** The written form is the decimal numeral. *)
Theorem C18_written : forall n, decimal (value_of_usize n) n.
Proof. exact dec_print_decimal. Qed.
Print Assumptions C18_written.
Example C18_case : value_of_usize 18446744073709551615 = str "18446744073709551615" /\
  value_usize (str "18446744073709551615") = Ok 18446744073709551615 /\
  value_usize (str "18446744073709551616") = Panic /\ value_of_isize (-42)%Z = str "-42" /\
  value_isize (str "-42") = Ok (-42)%Z.
Proof. repeat split; vm_compute; reflexivity. Qed.
