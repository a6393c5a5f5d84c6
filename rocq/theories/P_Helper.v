(** Lemmas on M_Helper: scanners, separators, stability under more input. *)
From Coq Require Import Ascii String NArith ZArith Lia Bool List ZifyBool ZifyNat ZifyN.
From Verif Require Import Base P_Base M_Std P_Std M_Helper S_Http1.
Import ListNotations.
Local Open Scope N_scope.
Ltac Zify.zify_post_hook ::= Z.div_mod_to_equations.

(** ** Character classes *)
Lemma token_vchar b : is_token b = true <-> vchar b.
Proof. unfold is_token, vchar. lia. Qed.
Lemma status_token_spec b : is_status_token b = true <-> 32 <= b <= 126.
Proof. unfold is_status_token. lia. Qed.
Lemma in_map_big m b : N.of_nat (length m) <= b -> in_map m b = false.
Proof. intros H. unfold in_map. rewrite nth_overflow by lia. reflexivity. Qed.

Definition tcharb (b : N) : bool :=
  ((65 <=? b) && (b <=? 90)) || ((97 <=? b) && (b <=? 122)) || ((48 <=? b) && (b <=? 57)) ||
  existsb (N.eqb b) (str "!#$%&'*+-.^_`|~").
Lemma existsb_eqb_in b l : existsb (N.eqb b) l = true <-> In b l.
Proof.
  rewrite existsb_exists. split.
  - intros (x & Hx & E). apply N.eqb_eq in E. subst. exact Hx.
  - intros H. exists b. split; [exact H|apply N.eqb_refl].
Qed.
Lemma tcharb_spec b : tcharb b = true <-> tchar b.
Proof.
  unfold tcharb, tchar, alpha, upper, lower, digit. rewrite !orb_true_iff, existsb_eqb_in.
  rewrite !andb_true_iff, !N.leb_le. tauto.
Qed.
Lemma header_name_token_spec b : is_header_name_token b = true <-> tchar b.
Proof.
  rewrite <- tcharb_spec. destruct (N.lt_ge_cases b 256) as [H|H].
  - assert (E : eqb (is_header_name_token b) (tcharb b) = true).
    { revert b H. apply byte_sweep. vm_compute. reflexivity. }
    apply eqb_prop in E. rewrite E. tauto.
  - unfold is_header_name_token. rewrite in_map_big by (cbn; lia).
    split; [discriminate|]. intros K. apply tcharb_spec in K. exfalso.
    destruct K as [[K|K]|[K|K]]; unfold upper, lower, digit in *; try lia.
    cbn in K. repeat (destruct K as [K|K]; [lia|]). exact K.
Qed.
Lemma header_value_token_spec b : b < 256 -> is_header_value_token b = negb (b =? 13).
Proof.
  intros H. apply eqb_prop. revert b H. apply byte_sweep. vm_compute. reflexivity.
Qed.
Lemma header_value_token_lt b : is_header_value_token b = true -> b < 256.
Proof.
  intros H. destruct (N.lt_ge_cases b 256) as [K|K]; [exact K|].
  unfold is_header_value_token in H. rewrite in_map_big in H by (cbn; lia). discriminate.
Qed.
Lemma tchar_not b : tchar b -> b <> 32 /\ b <> 58 /\ b <> 13 /\ b <> 10 /\ 33 <= b <= 126.
Proof.
  intros [[K|K]|[K|K]]; unfold upper, lower, digit in *; try lia.
  cbn in K. repeat (destruct K as [K|K]; [lia|]). destruct K.
Qed.

Lemma forallb_Forall {A} (f : A -> bool) (P : A -> Prop) l :
  (forall x, f x = true <-> P x) -> forallb f l = true <-> Forall P l.
Proof.
  intros H. rewrite forallb_forall, Forall_forall. split; intros K x Hx; apply H; apply K; exact Hx.
Qed.

(** ** scan *)
Lemma scan_app f t b r : forallb f t = true -> f b = false -> scan f (t ++ b :: r) = Some (t, b :: r).
Proof.
  intros Ht Hb. induction t as [|x t IH]; cbn [app scan].
  - rewrite Hb. reflexivity.
  - cbn [forallb] in Ht. apply andb_true_iff in Ht as [Hx Ht]. rewrite Hx, (IH Ht). reflexivity.
Qed.
Lemma scan_none f l : scan f l = None <-> forallb f l = true.
Proof.
  induction l as [|b l IH]; [split; reflexivity|]. cbn [scan forallb].
  destruct (f b); cbn [andb].
  - destruct (scan f l) as [[t r]|]; split; intros H; try discriminate; try reflexivity.
    + exfalso. apply IH in H. discriminate.
    + apply IH. reflexivity.
  - split; discriminate.
Qed.
Lemma scan_some f l t r : scan f l = Some (t, r) ->
  l = t ++ r /\ forallb f t = true /\ exists b r', r = b :: r' /\ f b = false.
Proof.
  revert t r. induction l as [|b l IH]; intros t r H; [discriminate|]. cbn [scan] in H.
  destruct (f b) eqn:E.
  - destruct (scan f l) as [[t' r']|] eqn:S; [|discriminate]. injection H as <- <-.
    destruct (IH t' r' eq_refl) as (-> & Ht & Hr).
    repeat split; [|exact Hr]. cbn [forallb]. rewrite E. exact Ht.
  - injection H as <- <-. repeat split. exists b, l. split; [reflexivity|exact E].
Qed.
Lemma scan_more f l x t r : scan f l = Some (t, r) -> scan f (l ++ x) = Some (t, r ++ x).
Proof.
  intros H. apply scan_some in H as (-> & Ht & b & r' & -> & Hb).
  rewrite <- app_assoc. cbn [app]. apply scan_app; assumption.
Qed.

(** ** Stability: extending the input keeps every verdict except Partial. *)
Definition ext {A} (x : bytes) (r : res (A * bytes)) : res (A * bytes) :=
  match r with Ok (a, l) => Ok (a, l ++ x) | e => e end.
Definition stable {A} (p : bytes -> res (A * bytes)) : Prop :=
  forall l x, p l = partial \/ p (l ++ x) = ext x (p l).
(** Neither panics nor loops. *)
Definition returns {A} (r : res A) : Prop := r <> Panic /\ r <> Diverge.
Definition total_p {A} (p : bytes -> res (A * bytes)) : Prop := forall l, returns (p l).
(** The rest is a suffix. *)
Definition suffixing {A} (p : bytes -> res (A * bytes)) : Prop :=
  forall l a r, p l = Ok (a, r) -> exists c, l = c ++ r.

Lemma returns_ok {A} (a : A) : returns (Ok a). Proof. split; discriminate. Qed.
Lemma returns_err {A} e : returns (@Err A e). Proof. split; discriminate. Qed.
Lemma returns_bind {A B} (m : res A) (k : A -> res B) :
  returns m -> (forall a, m = Ok a -> returns (k a)) -> returns (bind m k).
Proof.
  intros [H1 H2] Hk. destruct m as [a|e| |]; cbn [bind]; try contradiction.
  - apply Hk. reflexivity.
  - apply returns_err.
Qed.

Lemma stable_bind {A B} (p : bytes -> res (A * bytes)) (k : A -> bytes -> res (B * bytes)) :
  stable p -> (forall a, stable (k a)) -> stable (fun l => ' (a, r) <- p l ;; k a r).
Proof.
  intros Hp Hk l x. destruct (Hp l x) as [H|H].
  - left. rewrite H. reflexivity.
  - rewrite H. destruct (p l) as [[a r]|e| |]; cbn [bind ext]; [apply Hk|right; reflexivity..].
Qed.
Lemma stable_ret {A} (a : A) : stable (fun l => Ok (a, l)).
Proof. intros l x. right. reflexivity. Qed.
Lemma stable_res {A B} (m : res A) (k : A -> bytes -> res (B * bytes)) :
  (forall a, stable (k a)) -> stable (fun l => a <- m ;; k a l).
Proof. intros Hk l x. destruct m; cbn [bind ext]; [apply Hk|right; reflexivity..]. Qed.
Lemma stable_if {A} (c : bool) (p q : bytes -> res (A * bytes)) :
  stable p -> stable q -> stable (fun l => if c then p l else q l).
Proof. destruct c; auto. Qed.
Lemma stable_err {A} e : stable (fun l => @Err (A * bytes) e).
Proof. intros l x. right. reflexivity. Qed.

Lemma parse_token_by_stable f e b : stable (parse_token_by f e b).
Proof.
  intros l x. unfold parse_token_by. destruct (scan f l) as [[t r]|] eqn:S; [|left; reflexivity].
  right. rewrite (scan_more _ _ x _ _ S).
  apply scan_some in S as (_ & _ & c & r' & -> & _).
  destruct t; [|reflexivity]. destruct b; reflexivity.
Qed.
Lemma parse_token_by_total f e b : total_p (parse_token_by f e b).
Proof.
  intros l. unfold parse_token_by. destruct (scan f l) as [[[|t0 t] r]|].
  - destruct b; [destruct r|]; split; discriminate.
  - split; discriminate.
  - split; discriminate.
Qed.
Lemma parse_token_by_ok f e l t r : parse_token_by f e false l = Ok (t, r) ->
  l = t ++ r /\ t <> [] /\ forallb f t = true /\ exists b r', r = b :: r' /\ f b = false.
Proof.
  unfold parse_token_by. intros H. destruct (scan f l) as [[t' r']|] eqn:S; [|discriminate].
  destruct t' as [|b t']; [discriminate|]. injection H as <- <-.
  apply scan_some in S as (-> & Ht & Hr). repeat split; try assumption. discriminate.
Qed.
Lemma parse_token_by_app f e t b r : t <> [] -> forallb f t = true -> f b = false ->
  parse_token_by f e false (t ++ b :: r) = Ok (t, b :: r).
Proof.
  intros Hn Ht Hb. unfold parse_token_by. rewrite (scan_app f t b r Ht Hb).
  destruct t; [contradiction|reflexivity].
Qed.

Lemma next_stable : stable next.
Proof. intros [|b l] x; [left; reflexivity|right; reflexivity]. Qed.
Lemma expect_stable b e : stable (expect b e).
Proof.
  apply (stable_bind next); [apply next_stable|]. intros c. apply stable_if.
  - apply stable_ret.
  - apply stable_err.
Qed.
Lemma expect_ok b e l a r : expect b e l = Ok (a, r) -> l = b :: r.
Proof.
  unfold expect, next. destruct l as [|c l]; [discriminate|]. cbn [bind].
  destruct (c =? b) eqn:E; [|discriminate]. apply N.eqb_eq in E. intros H. congruence.
Qed.
Lemma expect_app b e r : expect b e (b :: r) = Ok (tt, r).
Proof. unfold expect, next. cbn [bind]. rewrite N.eqb_refl. reflexivity. Qed.
Lemma expect_total b e : total_p (expect b e).
Proof. intros [|c l]; [apply returns_err|]. unfold expect, next. cbn [bind]. destruct (c =? b); split; discriminate. Qed.

Lemma skip_new_line_stable : stable skip_new_line.
Proof.
  apply (stable_bind next); [apply next_stable|]. intros b.
  repeat apply stable_if; try apply stable_ret; try apply stable_err. apply expect_stable.
Qed.
Lemma skip_new_line_total : total_p skip_new_line.
Proof.
  intros l. unfold skip_new_line, next. destruct l as [|b l]; [apply returns_err|]. cbn [bind].
  destruct (b =? 13); [apply expect_total|]. destruct (b =? 10); [apply returns_ok|].
  destruct (b =? 32); [apply returns_ok|apply returns_err].
Qed.
Lemma skip_new_line_eol e r : eol e -> skip_new_line (e ++ r) = Ok (tt, r).
Proof. intros []; reflexivity. Qed.
Lemma skip_new_line_ok l a r : skip_new_line l = Ok (a, r) -> exists e, eol e /\ l = e ++ r.
Proof.
  unfold skip_new_line, next. destruct l as [|b l]; [discriminate|]. cbn [bind].
  destruct (b =? 13) eqn:E1.
  - intros H. apply expect_ok in H. apply N.eqb_eq in E1. subst. exists [CR; LF]. split; [constructor|reflexivity].
  - destruct (b =? 10) eqn:E2.
    + intros H. injection H as _ <-. apply N.eqb_eq in E2. subst. exists [LF]. split; [constructor|reflexivity].
    + destruct (b =? 32) eqn:E3; [|discriminate].
      intros H. injection H as _ <-. apply N.eqb_eq in E3. subst. exists [SP]. split; [constructor|reflexivity].
Qed.

Lemma skip_spaces_stable : stable skip_spaces.
Proof.
  intros l x. induction l as [|b l IH]; [left; reflexivity|]. cbn [app skip_spaces].
  destruct (b =? 32); [exact IH|right; reflexivity].
Qed.
Lemma skip_spaces_total : total_p skip_spaces.
Proof.
  intros l. induction l as [|b l IH]; [apply returns_err|]. cbn [skip_spaces].
  destruct (b =? 32); [exact IH|apply returns_ok].
Qed.
Lemma skip_spaces_app n b r : b <> SP -> skip_spaces (spaces n ++ b :: r) = Ok (tt, b :: r).
Proof.
  intros H. induction n as [|n IH].
  - cbn [spaces repeat app skip_spaces]. apply N.eqb_neq in H. unfold SP in H. rewrite H. reflexivity.
  - exact IH.
Qed.
Lemma skip_spaces_ok l a r : skip_spaces l = Ok (a, r) ->
  exists n b r', l = spaces n ++ r /\ r = b :: r' /\ b <> SP.
Proof.
  induction l as [|b l IH]; [discriminate|]. cbn [skip_spaces]. destruct (b =? 32) eqn:E.
  - intros H. destruct (IH H) as (n & c & r' & -> & -> & Hc). apply N.eqb_eq in E. subst b.
    exists (S n), c, r'. repeat split; assumption.
  - intros H. injection H as _ <-. apply N.eqb_neq in E. exists 0%nat, b, l. repeat split; assumption.
Qed.

Lemma skip_empty_lines_ind (P : bytes -> Prop) :
  P [] -> (forall l, P l -> P (LF :: l)) -> (P [CR]) -> (forall l, P l -> P (CR :: LF :: l)) ->
  (forall c l, c <> LF -> P (CR :: c :: l)) -> (forall b l, b <> CR -> b <> LF -> P (b :: l)) ->
  forall l, P l.
Proof.
  intros H1 H2 H3 H4 H5 H6 l.
  assert (G : forall n l, (length l <= n)%nat -> P l).
  { induction n as [|n IH]; intros [|b k] Hk; cbn [length] in Hk; try lia; try exact H1.
    destruct (N.eq_dec b LF) as [->|E1]; [apply H2, IH; lia|].
    destruct (N.eq_dec b CR) as [->|E2]; [|apply H6; assumption].
    destruct k as [|c k]; [exact H3|]. cbn [length] in Hk.
    destruct (N.eq_dec c LF) as [->|E3]; [apply H4, IH; lia|apply H5; assumption]. }
  apply (G (length l)). lia.
Qed.
Lemma skip_empty_lines_stable : stable skip_empty_lines.
Proof.
  intros l x. induction l as [|l IH| |l IH|c l Hc|b l H1 H2] using skip_empty_lines_ind.
  - left; reflexivity.
  - exact IH.
  - left; reflexivity.
  - exact IH.
  - right. cbn [app skip_empty_lines]. change (CR =? 13) with true.
    apply N.eqb_neq in Hc. unfold LF in Hc. cbv iota. rewrite Hc. reflexivity.
  - right. cbn [app skip_empty_lines]. apply N.eqb_neq in H1, H2. unfold CR, LF in *.
    rewrite H1, H2. reflexivity.
Qed.
Lemma skip_empty_lines_total : total_p skip_empty_lines.
Proof.
  intros l. induction l as [|l IH| |l IH|c l Hc|b l H1 H2] using skip_empty_lines_ind;
    try apply returns_err; try exact IH.
  - cbn [skip_empty_lines]. change (CR =? 13) with true.
    apply N.eqb_neq in Hc. unfold LF in Hc. cbv iota. rewrite Hc. apply returns_err.
  - cbn [app skip_empty_lines]. apply N.eqb_neq in H1, H2. unfold CR, LF in *.
    rewrite H1, H2. apply returns_ok.
Qed.
Lemma skip_empty_lines_app bl b r : blanks bl -> b <> CR -> b <> LF ->
  skip_empty_lines (bl ++ b :: r) = Ok (tt, b :: r).
Proof.
  intros Hb H1 H2. induction Hb as [|l Hl IH|l Hl IH]; [|exact IH|exact IH].
  cbn [app skip_empty_lines]. apply N.eqb_neq in H1, H2. unfold CR, LF in *.
  rewrite H1, H2. reflexivity.
Qed.
Lemma skip_empty_lines_ok l a r : skip_empty_lines l = Ok (a, r) -> exists bl, blanks bl /\ l = bl ++ r.
Proof.
  induction l as [|l IH| |l IH|c l Hc|b l H1 H2] using skip_empty_lines_ind; intros H; try discriminate H.
  - destruct (IH H) as (bl & Hb & ->). exists (LF :: bl). split; [constructor; exact Hb|reflexivity].
  - destruct (IH H) as (bl & Hb & ->). exists (CR :: LF :: bl). split; [constructor; exact Hb|reflexivity].
  - exfalso. cbn [skip_empty_lines] in H. change (CR =? 13) with true in H.
    apply N.eqb_neq in Hc. unfold LF in Hc. cbv iota in H. rewrite Hc in H. discriminate.
  - exists []. split; [constructor|]. cbn [app skip_empty_lines] in H.
    apply N.eqb_neq in H1, H2. unfold CR, LF in *. rewrite H1, H2 in H. injection H as _ <-. reflexivity.
Qed.
