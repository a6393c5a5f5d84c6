(** C136: the named header fields. *)
From Coq Require Import Ascii String NArith ZArith Lia Bool List ZifyBool ZifyNat ZifyN.
From Verif Require Import Base P_Base S_Utf8 P_Base M_Helper M_Header M_Value S_Http1 S_Http1Api S_Map P_Header P_Map P_Msg S_HpackApi P_HpackSync T_Value M_Names S_Names P_Names.
Import ListNotations.
Local Open Scope N_scope.

(** Every constant is the field that its identifier spells; different constants are different fields; all are field names of HTTP/1 and of HTTP/2. *)
Theorem C136_spelled : forall k n, named k = Some n -> n = NStand (spelled k).
Proof.
  intros k n H. unfold named in H. destruct (find _ named_fields) as [r|] eqn:F; [|discriminate]. injection H as <-. apply find_some in F as [I E]. apply String.eqb_eq in E. subst k.
  assert (K : forallb (fun r => beq (str (snd r)) (spelled (fst r))) named_fields = true) by (vm_compute; reflexivity). rewrite forallb_forall in K. specialize (K r I). apply beq_eq in K. rewrite K. reflexivity.
Qed.
Print Assumptions C136_spelled.
Theorem C136_different : forall k1 k2 n, named k1 = Some n -> named k2 = Some n -> k1 = k2.
Proof.
  intros k1 k2 n H1 H2. unfold named in H1, H2. destruct (find _ named_fields) as [r1|] eqn:F1; [|discriminate]. destruct (find (fun r => String.eqb (fst r) k2) named_fields) as [r2|] eqn:F2; [|discriminate].
  injection H1 as <-. injection H2 as E. apply find_some in F1 as [I1 E1]. apply find_some in F2 as [I2 E2]. apply String.eqb_eq in E1, E2. subst k1 k2.
  assert (K : forallb (fun r => forallb (fun s => implb (beq (str (snd r)) (str (snd s))) (String.eqb (fst r) (fst s))) named_fields) named_fields = true) by (vm_compute; reflexivity).
  rewrite forallb_forall in K. specialize (K r1 I1). rewrite forallb_forall in K. specialize (K r2 I2). rewrite (proj2 (beq_eq _ _) (eq_sym E)) in K. apply String.eqb_eq, K.
Qed.
Print Assumptions C136_different.
Theorem C136_legal : forall c, a_constant c -> name_ok c /\ Forall h2_char c.
Proof.
  intros c C. destruct (constant_plain c C) as [N P]. split; [split; [exact N|]|]; (eapply Forall_impl; [|exact P]; intros y K; cbn in K).
  - destruct K as [K| ->]; [left; right; exact K|right; right; vm_compute; tauto].
  - left. split; [destruct K as [K| ->]; [left; right; exact K|right; right; vm_compute; tauto]|]. unfold upper. lia.
Qed.
Print Assumptions C136_legal.
(** The field names that a constant finds in a map: itself in any case, and the like with 'M' for '-'.
    So a constant without '-' finds itself only, ... *)
Theorem C136_taken : forall n c, name_ok n -> a_constant c -> (name_eq n c = true <-> taken_for n c).
Proof. intros n c [_ T]. exact (constant_taken n c T). Qed.
Print Assumptions C136_taken.
Theorem C136_letters : forall n c, name_ok n -> a_constant c -> ~ In 45 c -> (name_eq n c = true <-> fold_name n = c).
Proof.
  intros n c N C H. rewrite (C136_taken n c N C). clear N C. split.
  - induction 1 as [|x y n c K T IH]; [reflexivity|]. cbn [fold_name map]. fold (fold_name n). rewrite IH by (intros I; apply H; right; exact I). destruct K as [->|[_ ->]]; [reflexivity|].
    destruct H. left. reflexivity.
  - intros <-. clear H. induction n as [|x n IH]; constructor; [left; reflexivity|exact IH].
Qed.
Print Assumptions C136_letters.
(** ... but every constant with '-' finds other names too; *)
Theorem C136_hyphen_refuted : forall c, a_constant c -> In 45 c -> exists n, name_ok n /\ fold_name n <> c /\ name_eq n c = true.
Proof.
  intros c C H. destruct (constant_plain c C) as [N P]. set (f := fun y => if y =? 45 then 77 else y). exists (map f c).
  assert (K : name_ok (map f c)).
  { split; [destruct c; [contradiction|discriminate]|]. apply Forall_map. eapply Forall_impl; [|exact P]. intros y Y. cbn in Y. unfold f. destruct (N.eqb_spec y 45); [left; left; vm_compute; split; discriminate|].
    left. right. destruct Y; [assumption|contradiction]. }
  split; [exact K|]. split.
  - intros E. apply in_split in H as (a & b & ->). unfold fold_name in E. rewrite !map_app in E. cbn [map] in E.
    assert (L : nth (length a) (map fold_byte (map f a) ++ fold_byte (f 45) :: map fold_byte (map f b)) 0 = nth (length a) (a ++ 45 :: b) 0) by (f_equal; exact E).
    rewrite !app_nth2 in L by (rewrite ?map_length; lia). rewrite ?map_length, Nat.sub_diag in L. vm_compute in L. discriminate.
  - apply (C136_taken _ c K C). clear K C H N. induction P as [|y c Y P IH]; constructor; [|exact IH]. unfold f. destruct (N.eqb_spec y 45); [right; auto|]. left. unfold fold_byte. destruct Y; [|contradiction].
    replace (y <=? 90) with false by lia. rewrite andb_false_r. reflexivity.
Qed.
Print Assumptions C136_hyphen_refuted.
(** no name of any octets, though, is found by two constants. *)
Theorem C136_one : forall n c d, bytes_ok n -> a_constant c -> a_constant d -> name_eq n c = true -> name_eq n d = true -> c = d.
Proof. exact constants_one. Qed.
Print Assumptions C136_one.
(** Whatever names a map holds: calls that name other constants do not change what a constant finds. *)
Theorem C136_others : forall h ops, Forall (fun nv => bytes_ok (fst nv)) h -> Forall (fun o => Forall a_constant (hop_names o)) ops -> exists h', calls h ops = Ok h' /\
  forall c, a_constant c -> Forall (fun o => o <> HClear /\ Forall (fun n => n <> c) (hop_names o)) ops -> hm_get h' c = hm_get h c.
Proof. intros h ops. exact (calls_others ops h). Qed.
Print Assumptions C136_others.
(** In maps that are received as HTTP/1, or made with calls that name fields, the constants are as many variables: what one finds after any calls is what the calls
    that name it make of what it found before. *)
Theorem C136_variables : forall h ops, Forall (fun nv => bytes_ok (fst nv)) h -> single h -> Forall (fun o => Forall a_constant (hop_names o)) ops ->
  exists h', calls h ops = Ok h' /\ single h' /\ forall c, a_constant c -> hm_get h' c = fold_left (reg_step c) ops (hm_get h c).
Proof. intros h ops. exact (calls_registers ops h). Qed.
Print Assumptions C136_variables.
Theorem C136_received : forall l, single (fst (parse_header l)) /\ Forall (fun nv => bytes_ok (fst nv)) (fst (parse_header l)).
Proof.
  intros l. assert (F : fine (fst (parse_header l))) by (apply fine_parsed; split; [constructor|exact Logic.I]). split; [apply fine_single, F|apply fine_bytes, F].
Qed.
Print Assumptions C136_received.
Theorem C136_made : forall ops h, Forall (fun o => Forall name_ok (hop_names o)) ops -> calls [] ops = Ok h -> single h /\ Forall (fun nv => bytes_ok (fst nv)) h.
Proof.
  intros ops h N E. assert (F : fine h).
  { apply (fine_calls ops [] h); [split; [constructor|exact Logic.I]| |exact E]. eapply Forall_impl; [|exact N]. intros o K. eapply Forall_impl; [|exact K]. intros n [_ T]. exact T. }
  split; [apply fine_single, F|apply fine_bytes, F].
Qed.
Print Assumptions C136_made.
(** HeaderName::from_bytes: never None, the constant for its octets and for no others (letter case counts here), and any text is kept as it is. *)
Theorem C136_from_bytes : forall s, exists n, header_name_from_bytes s = Some n /\ (n = NStand s <-> a_constant s) /\ (~ a_constant s -> n = NValue (utf8_lossy s)) /\ (is_utf8 s -> hn_as_bytes n = s).
Proof.
  intros s. assert (A : In s constants <-> a_constant s).
  { split; [|apply constant_in]. intros I. unfold constants in I. apply in_map_iff in I as (r & <- & I).
    assert (K : forallb (fun r => match named (fst r) with Some (NStand c) => beq c (str (snd r)) | _ => false end) named_fields = true) by (vm_compute; reflexivity).
    rewrite forallb_forall in K. specialize (K r I). cbn beta in K. exists (fst r). destruct (named (fst r)) as [[c|c]|]; try discriminate. apply beq_eq in K. rewrite K. reflexivity. }
  eexists. split; [reflexivity|]. unfold hn_from_bytes. fold constants. destruct (existsb (beq s) constants) eqn:E.
  - apply existsb_exists in E as (c & I & E). apply beq_eq in E. subst c. split; [split; [intros _; apply A, I|reflexivity]|]. split; [intros K; destruct (K (proj1 A I))|reflexivity].
  - assert (K : ~ a_constant s). { intros C. apply A in C. assert (existsb (beq s) constants = true) by (apply existsb_exists; exists s; split; [exact C|apply beq_eq; reflexivity]). congruence. }
    split; [split; [discriminate|intros C; contradiction]|]. split; [reflexivity|]. intros U. apply utf8_lossy_valid, utf8_valid_iff, U.
Qed.
Print Assumptions C136_from_bytes.

(** Non-trivial cases. *)
Example C136_some : named "CONTENT_LENGTH" = Some (NStand (str "content-length")) /\ named "X_XSS_PROTECTION" = Some (NStand (str "x-xss-protection")) /\
  named "content_length" = None /\ length named_fields = 81%nat.
Proof. vm_compute. auto. Qed.
Example C136_block : let h := fst (parse_header (str "Host: a" ++ [13; 10] ++ str "CONTENTMLENGTH: 5" ++ [13; 10] ++ str "via: p" ++ [13; 10; 13; 10])) in
  h = [(str "Host", str "a"); (str "CONTENTMLENGTH", str "5"); (str "via", str "p")] /\ hm_get h (str "content-length") = Some (str "5") /\
  Forall (fun o => Forall a_constant (hop_names o)) [HPush (str "via") (str "q"); HRemove (str "host"); HInsert (str "content-length") (str "7")] /\
  calls h [HPush (str "via") (str "q"); HRemove (str "host"); HInsert (str "content-length") (str "7")] = Ok [(str "CONTENTMLENGTH", str "7"); (str "via", str "p;q")].
Proof.
  split; [vm_compute; reflexivity|]. split; [vm_compute; reflexivity|]. split; [|vm_compute; reflexivity]. repeat apply Forall_cons; try apply Forall_nil;
  [exists "VIA"%string|exists "HOST"%string|exists "CONTENT_LENGTH"%string]; vm_compute; reflexivity.
Qed.
