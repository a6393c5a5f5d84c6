(** Header names and values as literals and as owned strings: C88. *)
From Coq Require Import Ascii String NArith ZArith Lia Bool List ZifyBool ZifyNat ZifyN.
From Verif Require Import Base S_Utf8 P_Base M_Std M_Helper M_Header S_Http1 S_Http1Api S_Map P_Map M_Url M_Http1 P_Msg M_H2 P_H2Msg M_Build S_Build P_Build3 M_Value S_Value P_Value.
Import ListNotations.
Local Open Scope N_scope.

(** C88. Values: equality with a value, a str or bytes is equality of the bytes, equal values hash equally and others differ in
    what they feed the hasher. *)
Theorem C88_value_equality : forall v w,
  (hv_eq v w = true <-> value_of v = value_of w) /\ (hv_hash v = hv_hash w <-> value_of v = value_of w) /\
  (forall s, hv_eq_str v s = true <-> value_of v = s) /\ (forall s, hv_eq_bytes v s = true <-> value_of v = s).
Proof.
  intros v w. split; [apply hv_eq_iff|]. split; [apply hv_hash_iff|]. split; intros s; destruct v; cbn; apply beq_eq.
Qed.
Print Assumptions C88_value_equality.
(** What can be read from a value depends on its bytes only. *)
Theorem C88_value_reads : forall v, text_value v ->
  hv_as_bytes v = value_of v /\ hv_bytes_len v = blen (value_of v) /\ hv_encode v = value_of v /\
  (forall w, hv_contains v w = true <-> exists a b, value_of v = a ++ w ++ b) /\
  (forall s, hv_as_string v = Some s <-> s = value_of v /\ is_utf8 s) /\
  hv_display v = utf8_lossy (value_of v) /\ hv_to_string v = Ok (utf8_lossy (value_of v)) /\
  (forall w, value_of (hv_push v w) = value_of v ++ str ";" ++ value_of w).
Proof.
  intros v T. split; [apply hv_bytes|]. split; [destruct v; reflexivity|]. split; [destruct v; reflexivity|].
  split; [intros w; unfold hv_contains; rewrite hv_bytes; apply contains_bytes_spec|].
  split. { intros s. rewrite (text_string v T). unfold value_as_string. destruct (utf8_valid (value_of v)) eqn:U.
    - split; [intros K; injection K as <-; split; [reflexivity|apply utf8_valid_iff; exact U]|intros [-> _]; reflexivity].
    - split; [discriminate|]. intros [-> K]. apply utf8_valid_iff in K. congruence. }
  split; [apply text_lossy, T|]. split; [apply text_to_string, T|]. intros w. apply hv_push_bytes.
Qed.
Print Assumptions C88_value_reads.
(** Names: every comparison and the hash depend on the bytes only; the hash is that of the lower-case name (see C15 and C16
    for which names are equal). *)
Theorem C88_names : forall n m n' m', name_of n = name_of n' -> name_of m = name_of m' ->
  hn_eq n m = hn_eq n' m' /\ (forall s, hn_eq_bytes n s = hn_eq_bytes n' s /\ hn_eq_str n s = hn_eq_str n' s) /\
  hn_is_spec n = hn_is_spec n' /\ hn_encode n = hn_encode n' /\ hn_display n = hn_display n' /\ hn_bytes_len n = hn_bytes_len n' /\
  (hn_hash n = hn_hash m <-> fold_name (name_of n) = fold_name (name_of m)).
Proof.
  intros n m n' m' E F. split; [rewrite !hn_eq_name, E, F; reflexivity|].
  split; [intros s; unfold hn_eq_str; fold (hn_eq_bytes n s) (hn_eq_bytes n' s); rewrite !hn_eqb_name, E; split; reflexivity|].
  split; [destruct n, n'; cbn in *; congruence|]. split; [destruct n, n'; cbn in *; congruence|]. split; [destruct n, n'; cbn in *; congruence|].
  split; [destruct n, n'; cbn in *; congruence|].
  rewrite !hn_hash_fold. split; [|intros ->; reflexivity]. generalize (fold_name (name_of n)) (fold_name (name_of m)).
  induction b as [|x a IH]; intros [|y b]; cbn; intros K; try discriminate K; [reflexivity|]. injection K as -> K. f_equal. apply IH, K.
Qed.
Print Assumptions C88_names.
(** The map: whatever literals and owned strings a program puts into it, it holds what the model of the other theorems
    (M_Header, where there are only bytes) holds. *)
Theorem C88_map : forall ops h, tops_run ops = Ok h -> hops_run (map forget ops) = Ok (fields_of h).
Proof. intros ops h E. rewrite <- tops_run_forget, E. reflexivity. Qed.
Print Assumptions C88_map.
(** Two programs that differ only in the storage of what they put in succeed alike, and every question has the same answer. *)
Theorem C88_storage : forall ops ops' h, map forget ops = map forget ops' -> Forall top_text ops -> Forall top_text ops' -> tops_run ops = Ok h ->
  exists h', tops_run ops' = Ok h' /\ fields_of h = fields_of h' /\
    (forall n, option_map value_of (tm_get h n) = option_map value_of (tm_get h' n) /\ tm_contains h n = tm_contains h' n /\
       tm_get_str h n = tm_get_str h' n /\ tm_text h n = tm_text h' n /\
       forall w, tm_is_contains h n w = tm_is_contains h' n w /\ tm_is_equal h n w = tm_is_equal h' n w) /\
    tm_get_host h = tm_get_host h' /\ tm_is_keep_alive h = tm_is_keep_alive h' /\ tm_is_chunked h = tm_is_chunked h' /\
    tm_get_upgrade h = tm_get_upgrade h' /\ tm_encode h = tm_encode h' /\ tm_display h = tm_display h' /\
    tm_eq h h' = tm_eq h h /\ tm_eq h' h = tm_eq h h.
Proof.
  intros ops ops' h F T T' E. pose proof (tops_run_forget ops) as A. pose proof (tops_run_forget ops') as B. rewrite <- F, <- A, E in B. cbn [erase] in B.
  destruct (tops_run ops') as [h'| | |] eqn:E'; cbn [erase] in B; try discriminate B. injection B as B. exists h'. split; [reflexivity|].
  pose proof (text_runs _ _ T E) as U. pose proof (text_runs _ _ T' E') as U'. split; [symmetry; exact B|].
  assert (G : forall n, option_map value_of (tm_get h n) = option_map value_of (tm_get h' n)) by (intros n; rewrite <- !tm_get_forget, B; reflexivity).
  assert (V : forall n (f : bytes -> bool), match tm_get h n with Some v => f (hv_as_bytes v) | None => false end = match tm_get h' n with Some v => f (hv_as_bytes v) | None => false end).
  { intros n f. specialize (G n). destruct (tm_get h n), (tm_get h' n); cbn in G; try discriminate G; [|reflexivity]. rewrite !hv_bytes. injection G as ->. reflexivity. }
  split. { intros n. split; [apply G|]. split; [rewrite !tm_contains_forget, B; reflexivity|].
    split; [rewrite !tm_str_forget, B by assumption; reflexivity|]. split; [rewrite !tm_text_forget, B by assumption; reflexivity|].
    intros w. split; [exact (V n (fun v => contains_bytes v w))|exact (V n (fun v => beq v w))]. }
  split; [rewrite !tm_host_forget, B by assumption; reflexivity|]. split; [exact (V _ (fun v => contains_bytes v (str "Keep-Alive")))|].
  split; [exact (V _ (fun v => contains_bytes v (str "chunked")))|]. split; [rewrite !tm_upgrade_forget, B by assumption; reflexivity|].
  split; [rewrite !tm_encode_forget, B; reflexivity|]. split; [rewrite !tm_display_forget, B by assumption; reflexivity|].
  assert (Q : forall a b c d, fields_of a = fields_of c -> fields_of b = fields_of d -> tm_eq a b = tm_eq c d).
  { clear. induction a as [|[n v] a IH]; intros b [|[m w] c] d K L; try discriminate K.
    - destruct b as [|[? ?] b], d as [|[? ?] d]; try discriminate L; reflexivity.
    - cbn in K. injection K as K1 K2 K3. destruct b as [|[n2 v2] b], d as [|[m2 w2] d]; try discriminate L; [reflexivity|].
      cbn in L. injection L as L1 L2 L3. cbn [tm_eq]. rewrite !hn_eq_name, K1, L1, (IH b c d K3 L3). f_equal. f_equal.
      apply eq_true_iff_eq. rewrite !hv_eq_iff, K2, L2. reflexivity. }
  split; apply Q; auto.
Qed.
Print Assumptions C88_storage.
(** Maps are equal when they have equal names and the same values, in the same order. *)
Theorem C88_map_equality : forall g h, tm_eq g h = true <->
  Forall2 (fun a b => name_eq (name_of (fst a)) (name_of (fst b)) = true /\ value_of (snd a) = value_of (snd b)) g h.
Proof. exact tm_eq_iff. Qed.
Print Assumptions C88_map_equality.
(** The one exception is the body length.  Plain numerals give the same length; *)
Theorem C88_body_length_partial : forall h v n, tm_get h (str "content-length") = Some v -> decimal (value_of v) n -> n < 2 ^ 63 ->
  tm_body_len h = Ok (Z.of_N n).
Proof. exact tm_body_decimal. Qed.
Print Assumptions C88_body_length_partial.
(** for an owned value everything is as in C17, and for a literal it is what Rust's own integer parser reads. *)
Theorem C88_body_length_owned : forall h v, tm_get h (str "content-length") = Some (VValue v) -> tm_body_len h = hm_body_len (fields_of h).
Proof. exact tm_body_owned. Qed.
Print Assumptions C88_body_length_owned.
Theorem C88_body_length_literal : forall h s z, tm_get h (str "content-length") = Some (VStand s) ->
  (tm_body_len h = Ok z <-> (std_signed s z /\ (- 2 ^ 63 <= z < 2 ^ 63)%Z) \/ (z = 0%Z /\ forall y, std_signed s y -> ~ (- 2 ^ 63 <= y < 2 ^ 63)%Z)).
Proof. exact tm_body_literal. Qed.
Print Assumptions C88_body_length_literal.
Theorem C88_body_length_refuted : exists s, is_utf8 s /\ tm_body_len [(NStand (str "content-length"), VStand s)] = Ok 5%Z /\
  tm_body_len [(NStand (str "content-length"), VValue s)] = Ok 0%Z.
Proof. exists (str "+5"). split; [apply utf8_valid_iff; reflexivity|]. split; vm_compute; reflexivity. Qed.
Print Assumptions C88_body_length_refuted.
(** Without the field the length is 0; the other questions look at the field of their name. *)
Theorem C88_questions : forall h,
  (tm_get h (str "content-length") = None -> tm_body_len h = Ok 0%Z) /\
  (tm_is_keep_alive h = true <-> exists v a b, tm_get h (str "connection") = Some v /\ value_of v = a ++ str "Keep-Alive" ++ b) /\
  (tm_is_chunked h = true <-> exists v a b, tm_get h (str "transfer-encoding") = Some v /\ value_of v = a ++ str "chunked" ++ b) /\
  (forall p, tm_get_upgrade h = Some p <->
     (exists v a b, tm_get h (str "connection") = Some v /\ value_of v = a ++ str "Upgrade" ++ b) /\ tm_get_str h (str "upgrade") = Some p).
Proof.
  intros h. split; [intros G; unfold tm_body_len; rewrite G; reflexivity|].
  assert (C : forall n w, match tm_get h n with Some v => contains_bytes (hv_as_bytes v) w | None => false end = true <->
                exists v a b, tm_get h n = Some v /\ value_of v = a ++ w ++ b).
  { intros n w. destruct (tm_get h n) as [v|].
    - rewrite hv_bytes, contains_bytes_spec. split; [intros (a & b & E); exists v, a, b; auto|intros (v' & a & b & [= <-] & E); exists a, b; exact E].
    - split; [discriminate|]. intros (v & a & b & K & _). discriminate K. }
  split; [apply C|]. split; [apply C|]. intros p. rewrite <- C. unfold tm_get_upgrade. destruct (tm_get h (str "connection")) as [v|].
  - destruct (contains_bytes (hv_as_bytes v) (str "Upgrade")); [tauto|]. split; [discriminate|]. intros [K _]. discriminate K.
  - split; [discriminate|]. intros [K _]. discriminate K.
Qed.
Print Assumptions C88_questions.
(** Whether a field is, or contains, given bytes: a question about the field that is found, and no if there is none.  Both
    models of the map answer alike. *)
Theorem C14_values : forall h n w,
  (hm_is_equal h n w = true <-> hm_get h n = Some w) /\ (hm_is_contains h n w = true <-> exists a b, hm_get h n = Some (a ++ w ++ b)).
Proof.
  intros h n w. unfold hm_is_equal, hm_is_contains. destruct (hm_get h n) as [v|].
  - rewrite contains_bytes_spec. split; [rewrite beq_eq; split; congruence|].
    split; [intros (a & b & ->); exists a, b; reflexivity|intros (a & b & [= ->]); exists a, b; reflexivity].
  - split; [split; discriminate|split; [discriminate|intros (a & b & K); discriminate K]].
Qed.
Print Assumptions C14_values.
Theorem C88_values : forall h n w, tm_is_equal h n w = hm_is_equal (fields_of h) n w /\ tm_is_contains h n w = hm_is_contains (fields_of h) n w.
Proof.
  intros h n w. unfold tm_is_equal, tm_is_contains, hm_is_equal, hm_is_contains. rewrite tm_get_forget.
  destruct (tm_get h n) as [v|]; cbn [option_map]; rewrite ?hv_bytes; split; reflexivity.
Qed.
Print Assumptions C88_values.
(** A name from bytes: the literal if it is one of the standard names as it is spelled, and otherwise an owned text; for UTF-8 it is the
    bytes. *)
Theorem C88_from_bytes : forall standard s,
  (hn_from_bytes standard s = NStand s <-> In s standard) /\ (hn_from_bytes standard s = NValue (utf8_lossy s) <-> ~ In s standard) /\
  (is_utf8 s -> name_of (hn_from_bytes standard s) = s).
Proof.
  intros standard s.
  assert (E : existsb (beq s) standard = true <-> In s standard).
  { rewrite existsb_exists. split; [intros (x & I & B); apply beq_eq in B; subst; exact I|intros I; exists s; split; [exact I|apply beq_eq; reflexivity]]. }
  unfold hn_from_bytes. destruct (existsb (beq s) standard).
  - split; [tauto|]. split; [split; [discriminate|intros K; exfalso; apply K, E; reflexivity]|reflexivity].
  - split; [split; [discriminate|intros K; apply E in K; discriminate K]|]. split; [split; [intros _ K; apply E in K; discriminate K|reflexivity]|].
    intros U. cbn [name_of]. apply utf8_lossy_valid. apply utf8_valid_iff, U.
Qed.
Print Assumptions C88_from_bytes.
Example C88_nonvacuous :
  let ops := [TInsert (NStand (str "Host")) (VStand (str "a")); TPush (NValue (str "x")) (VValue [255]); TPush (NStand (str "X")) (VStand (str "2"));
              TSet (str "HOST") (VValue (str "b")); TRemove (str "y")] in
  let ops' := [TInsert (NValue (str "Host")) (VValue (str "a")); TPush (NStand (str "x")) (VValue [255]); TPush (NStand (str "X")) (VValue (str "2"));
              TSet (str "HOST") (VStand (str "b")); TRemove (str "y")] in
  map forget ops = map forget ops' /\ Forall top_text ops /\ Forall top_text ops' /\
  (exists h, tops_run ops = Ok h /\ fields_of h = [(str "Host", str "b"); (str "x", [255; 59; 50])] /\ tm_get_host h = Some (str "b")).
Proof.
  cbv zeta. split; [reflexivity|]. split; [repeat constructor; cbn; apply utf8_valid_iff; reflexivity|].
  split; [repeat constructor; cbn; apply utf8_valid_iff; reflexivity|].
  eexists. split; [vm_compute; reflexivity|]. split; reflexivity.
Qed.
