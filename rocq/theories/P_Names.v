(** Proofs about the named header fields (C136). *)
From Coq Require Import Ascii String NArith ZArith Lia Bool List ZifyBool ZifyNat ZifyN.
From Verif Require Import Base P_Base M_Helper M_Header S_Http1 S_Http1Api P_Http1 P_Header S_Map P_Map P_Msg P_Reject P_Helper P_Wait  M_Value M_Names S_Names.
Import ListNotations.
Local Open Scope N_scope.

Definition constants : list bytes := map (fun r => str (snd r)) named_fields.
Lemma constant_in c : a_constant c -> In c constants.
Proof.
  intros (k & H). unfold named in H. destruct (find _ named_fields) as [r|] eqn:F; [|discriminate]. injection H as <-. apply find_some in F as [F _].
  unfold constants. change (str (snd r)) with ((fun r => str (snd r)) r). apply List.in_map, F.
Qed.
Definition plainb (c : bytes) : bool := match c with [] => false | _ => forallb (fun y => (97 <=? y) && (y <=? 122) || (y =? 45)) c end.
Lemma constants_plainb : forallb plainb constants = true. Proof. vm_compute. reflexivity. Qed.
Definition plain (c : bytes) : Prop := Forall (fun y => 97 <= y <= 122 \/ y = 45) c.
Lemma constant_plain c : a_constant c -> c <> [] /\ plain c.
Proof.
  intros H. apply constant_in in H. pose proof constants_plainb as K. rewrite forallb_forall in K. specialize (K c H). destruct c as [|y c]; [discriminate|].
  split; [discriminate|]. unfold plainb in K. rewrite forallb_forall in K. apply Forall_forall. intros z I. specialize (K z I). lia.
Qed.
Lemma plain_bytes c : plain c -> bytes_ok c.
Proof. intros H. eapply Forall_impl; [|exact H]. intros y K. unfold byte_ok. cbn in K. lia. Qed.
Lemma constant_bytes c : a_constant c -> bytes_ok c. Proof. intros H. apply plain_bytes, constant_plain, H. Qed.

(** Which names a constant finds. *)
Definition meets (x y : N) : Prop := x = y \/ (x + 32) mod 256 = y \/ (y + 32) mod 256 = x.
Lemma wrap x : x < 256 -> (x + 32) mod 256 = if x <? 224 then x + 32 else x - 224.
Proof.
  intros H. destruct (N.ltb_spec x 224) as [K|K]; [apply N.mod_small; lia|]. replace (x + 32) with ((x - 224) + 1 * 256) by lia. rewrite N.mod_add by lia. apply N.mod_small. lia.
Qed.
Lemma meets_char x y : tchar x -> 97 <= y <= 122 \/ y = 45 -> (meets x y <-> fold_byte x = y \/ x = 77 /\ y = 45).
Proof. intros T P. apply tchar_lt in T. unfold meets, fold_byte. rewrite !wrap by lia. destruct (N.ltb_spec x 224), (N.ltb_spec y 224); destruct (65 <=? x) eqn:A, (x <=? 90) eqn:B; cbn [andb]; lia. Qed.
Lemma forall2_iff {A B} (P Q : A -> B -> Prop) (R : A -> Prop) (S : B -> Prop) l : forall m, Forall R l -> Forall S m -> (forall x y, R x -> S y -> (P x y <-> Q x y)) ->
  (Forall2 P l m <-> Forall2 Q l m).
Proof.
  induction l as [|x l IH]; intros [|y m] HR HS H; try (split; intros K; inversion K; constructor; fail).
  inversion HR as [|? ? R1 R2]; inversion HS as [|? ? S1 S2]; subst.
  split; intros K; inversion K as [|? ? ? ? K1 K2]; subst; constructor; try (apply (H x y R1 S1), K1); apply (IH m R2 S2 H), K2.
Qed.
Lemma constant_taken n c : Forall tchar n -> a_constant c -> (name_eq n c = true <-> taken_for n c).
Proof.
  intros T C. pose proof (proj2 (constant_plain c C)) as P. rewrite name_eq_iff by (apply constant_bytes, C || (eapply Forall_impl; [|exact T]; intros x K; apply tchar_lt in K; unfold byte_ok; lia)).
  apply (forall2_iff _ _ _ _ n c T P). intros x y. apply meets_char.
Qed.
(** No name is found by two constants. *)
Definition closeb (y z : N) : bool := existsb (fun d => (y + d) mod 256 =? z) [0; 32; 64; 192; 224].
Fixpoint all_close (a b : bytes) : bool := match a, b with [], [] => true | y :: a', z :: b' => closeb y z && all_close a' b' | _, _ => false end.
Lemma constants_apart : forallb (fun c => forallb (fun d => implb (all_close c d) (beq c d)) constants) constants = true.
Proof. vm_compute. reflexivity. Qed.
Lemma mod_add_r a b : (a mod 256 + b) mod 256 = (a + b) mod 256. Proof. apply N.add_mod_idemp_l. lia. Qed.
Lemma meets_close x y z : x < 256 -> y < 256 -> z < 256 -> meets x y -> meets x z -> closeb y z = true.
Proof.
  intros Hx Hy Hz A B. unfold closeb. apply existsb_exists.
  destruct A as [A|[A|A]]; destruct B as [B|[B|B]]; subst.
  - exists 0. split; [cbn; tauto|]. rewrite N.add_0_r, N.mod_small by lia. lia.
  - exists 32. split; [cbn; tauto|]. lia.
  - exists 224. split; [cbn; tauto|]. rewrite mod_add_r. replace (z + 32 + 224) with (z + 1 * 256) by lia. rewrite N.mod_add, N.mod_small by lia. lia.
  - exists 224. split; [cbn; tauto|]. rewrite mod_add_r. replace (z + 32 + 224) with (z + 1 * 256) by lia. rewrite N.mod_add, N.mod_small by lia. lia.
  - exists 0. split; [cbn; tauto|]. rewrite N.add_0_r. rewrite N.mod_mod by lia. lia.
  - exists 192. split; [cbn; tauto|]. rewrite mod_add_r. replace ((z + 32) mod 256 + 32 + 192) with ((z + 32) mod 256 + 224) by lia. rewrite mod_add_r.
    replace (z + 32 + 224) with (z + 1 * 256) by lia. rewrite N.mod_add, N.mod_small by lia. lia.
  - exists 32. split; [cbn; tauto|]. lia.
  - exists 64. split; [cbn; tauto|]. rewrite mod_add_r. replace (y + 32 + 32) with (y + 64) by lia. lia.
  - exists 0. split; [cbn; tauto|]. rewrite N.add_0_r, N.mod_small by lia. rewrite !wrap in B by lia. destruct (N.ltb_spec y 224), (N.ltb_spec z 224); lia.
Qed.
Lemma meets_all n : forall c d, bytes_ok n -> bytes_ok c -> bytes_ok d -> Forall2 meets n c -> Forall2 meets n d -> all_close c d = true.
Proof.
  induction n as [|x n IH]; intros c d Bn Bc Bd A B; inversion A; inversion B; subst; [reflexivity|]. cbn [all_close].
  apply bytes_ok_cons in Bn as [? ?]. apply bytes_ok_cons in Bc as [? ?]. apply bytes_ok_cons in Bd as [? ?].
  apply andb_true_iff. split; [apply (meets_close x); assumption|apply IH; assumption].
Qed.
Lemma constants_one n c d : bytes_ok n -> a_constant c -> a_constant d -> name_eq n c = true -> name_eq n d = true -> c = d.
Proof.
  intros Bn C D A B. apply name_eq_iff in A; [|exact Bn|apply constant_bytes, C]. apply name_eq_iff in B; [|exact Bn|apply constant_bytes, D].
  pose proof constants_apart as K. rewrite forallb_forall in K. specialize (K c (constant_in c C)). rewrite forallb_forall in K. specialize (K d (constant_in d D)).
  rewrite (meets_all n c d Bn (constant_bytes c C) (constant_bytes d D) A B) in K. apply beq_eq, K.
Qed.

(** Maps. *)
Definition named_bytes (h : headers) : Prop := Forall (fun nv => bytes_ok (fst nv)) h.
Fixpoint one (c : bytes) (h : headers) : Prop :=
  match h with [] => True | m :: h' => (name_eq (fst m) c = true -> Forall (fun nv => name_eq (fst nv) c = false) h') /\ one c h' end.
Lemma single_one h : single h <-> forall c, a_constant c -> one c h.
Proof.
  split.
  - intros H c C. induction h as [|m h IH]; [exact Logic.I|]. split; [intros K; exact (H c [] m h C eq_refl K)|]. apply IH. intros c' a m' b C' E K. exact (H c' (m :: a) m' b C' (f_equal (cons m) E) K).
  - intros H c a m b C E K. specialize (H c C). subst h. induction a as [|x a IH]; cbn [app one] in H; [exact (proj1 H K)|apply IH, H].
Qed.
(** Names of the map after a call, seen from a constant. *)
Section Calls.
  Variable c : bytes.
  Hypothesis C : a_constant c.
  Lemma other n d : bytes_ok n -> a_constant d -> d <> c -> name_eq n d = true -> name_eq n c = false.
  Proof. intros B D K E. destruct (name_eq n c) eqn:F; [|reflexivity]. contradiction K. exact (constants_one n d c B D C E F). Qed.
  Lemma other_self d : a_constant d -> d <> c -> name_eq d c = false.
  Proof. intros D K. apply (other d d); [apply constant_bytes, D|exact D|exact K|apply name_eq_refl]. Qed.
  Lemma get_insert h d v : named_bytes h -> a_constant d -> hm_get (hm_insert h d v) c = if beq d c then Some v else hm_get h c.
  Proof.
    intros B D. destruct (beq d c) eqn:Q.
    - apply beq_eq in Q. subst d. induction h as [|[n w] h IH]; cbn [hm_insert hm_get]; [rewrite name_eq_refl; reflexivity|].
      destruct (name_eq n c) eqn:F; cbn [hm_get]; rewrite F; [reflexivity|]. apply IH. inversion B; assumption.
    - assert (K : d <> c) by (intros ->; rewrite (proj2 (beq_eq c c) eq_refl) in Q; discriminate).
      induction B as [|[n w] h Bn B IH]; cbn [hm_insert hm_get]; [rewrite (other_self d D K); reflexivity|]. cbn [fst] in Bn.
      destruct (name_eq n d) eqn:F; cbn [hm_get]; [rewrite (other n d Bn D K F); reflexivity|]. destruct (name_eq n c); [reflexivity|exact IH].
  Qed.
  Lemma get_push h d v : named_bytes h -> a_constant d ->
    hm_get (hm_push h d v) c = if beq d c then Some (match hm_get h c with Some w => w ++ [59] ++ v | None => v end) else hm_get h c.
  Proof.
    intros B D. destruct (beq d c) eqn:Q.
    - apply beq_eq in Q. subst d. induction h as [|[n w] h IH]; cbn [hm_push hm_get]; [rewrite name_eq_refl; reflexivity|].
      destruct (name_eq n c) eqn:F; cbn [hm_get]; rewrite F; [reflexivity|]. apply IH. inversion B; assumption.
    - assert (K : d <> c) by (intros ->; rewrite (proj2 (beq_eq c c) eq_refl) in Q; discriminate).
      induction B as [|[n w] h Bn B IH]; cbn [hm_push hm_get]; [rewrite (other_self d D K); reflexivity|]. cbn [fst] in Bn.
      destruct (name_eq n d) eqn:F; cbn [hm_get]; [rewrite (other n d Bn D K F); reflexivity|]. destruct (name_eq n c); [reflexivity|exact IH].
  Qed.
  Lemma none_get h : Forall (fun nv => name_eq (fst nv) c = false) h -> hm_get h c = None.
  Proof. induction 1 as [|[n w] h F _ IH]; [reflexivity|]. cbn [hm_get fst] in *. rewrite F. exact IH. Qed.
  Lemma get_remove_other h d : named_bytes h -> a_constant d -> d <> c -> hm_get (fst (hm_remove h d)) c = hm_get h c.
  Proof.
    intros B D K. induction B as [|[n w] h Bn B IH]; [reflexivity|]. cbn [hm_remove hm_get fst] in *.
    destruct (name_eq n d) eqn:F; cbn [fst]; [rewrite (other n d Bn D K F); reflexivity|]. destruct (hm_remove h d) as [r o]. cbn [fst hm_get] in *. destruct (name_eq n c); [reflexivity|exact IH].
  Qed.
  Lemma get_remove h : one c h -> hm_get (fst (hm_remove h c)) c = None.
  Proof.
    induction h as [|[n w] h IH]; intros [O1 O2] || intros O; [reflexivity|]. cbn [hm_remove fst] in *.
    destruct (name_eq n c) eqn:F; cbn [fst]; [apply none_get, O1; reflexivity|]. specialize (IH O2). destruct (hm_remove h c) as [r o]. cbn [fst hm_get] in *. rewrite F. exact IH.
  Qed.
  Lemma update_get h d v : named_bytes h -> a_constant d -> hm_contains h d = true ->
    exists h', hm_update h d (fun _ => v) = Ok h' /\ map fst h' = map fst h /\ hm_get h' c = if beq d c then Some v else hm_get h c.
  Proof.
    intros B D P. destruct (hm_update_present h d (fun _ => v) P) as (h' & E). exists h'. split; [exact E|]. split; [exact (hm_update_names _ _ _ _ E)|]. clear P. revert h' E.
    induction B as [|[n w] h Bn B IH]; intros h' E; [discriminate|]. cbn [hm_update fst hm_get] in *. destruct (name_eq n d) eqn:F.
    - injection E as <-. cbn [hm_get]. destruct (beq d c) eqn:Q; [apply beq_eq in Q; subst d; rewrite F; reflexivity|].
      rewrite (other n d Bn D); [reflexivity|intros ->; rewrite (proj2 (beq_eq c c) eq_refl) in Q; discriminate|exact F].
    - apply bind_ok in E as (r & E1 & E). injection E as <-. cbn [hm_get]. rewrite (IH r E1). destruct (beq d c) eqn:Q; [apply beq_eq in Q; subst d; rewrite F; reflexivity|reflexivity].
  Qed.
  Lemma one_names h h' : map fst h' = map fst h -> one c h -> one c h'.
  Proof.
    revert h'. induction h as [|m h IH]; intros [|m' h'] E O; try discriminate; [exact Logic.I|]. cbn [map] in E. injection E as E1 E2. cbn [one] in *. rewrite E1. split; [|apply IH; tauto].
    intros K. destruct O as [O _]. specialize (O K). apply Forall_forall. intros x I. assert (J : In (fst x) (map fst h)) by (rewrite <- E2; apply List.in_map, I).
    apply in_map_iff in J as (y & Y & J). rewrite Forall_forall in O. rewrite <- Y. exact (O y J).
  Qed.
  Lemma one_snoc h d v : a_constant d -> (d = c -> Forall (fun nv => name_eq (fst nv) c = false) h) -> one c h -> one c (h ++ [(d, v)]).
  Proof.
    intros D N O. assert (Q : d = c \/ d <> c) by (destruct (beq d c) eqn:Q; [left; apply beq_eq, Q|right; intros ->; rewrite (proj2 (beq_eq c c) eq_refl) in Q; discriminate]).
    destruct Q as [Q|Q].
    - specialize (N Q). clear O. induction N as [|m h F N IH]; cbn [app one]; [split; [intros _; constructor|exact Logic.I]|]. split; [congruence|exact IH].
    - induction h as [|m h IH]; cbn [app one] in *; [split; [intros _; constructor|exact Logic.I]|]. split; [|apply IH; [intros ?; contradiction|tauto]].
      intros K. apply Forall_app. split; [tauto|]. constructor; [apply other_self; assumption|constructor].
  Qed.
  Lemma insert_shape h d v : (exists h1, hm_insert h d v = h1 /\ map fst h1 = map fst h) \/ (hm_insert h d v = h ++ [(d, v)] /\ Forall (fun nv => name_eq (fst nv) d = false) h).
  Proof.
    induction h as [|[n w] h IH]; cbn [hm_insert]; [right; split; [reflexivity|constructor]|]. destruct (name_eq n d) eqn:F; [left; eexists; split; reflexivity|].
    destruct IH as [(h1 & -> & E)|[-> K]]; [left; eexists; split; [reflexivity|]; cbn [map]; rewrite E; reflexivity|right; split; [reflexivity|constructor; assumption]].
  Qed.
  Lemma push_shape h d v : (exists h1, hm_push h d v = h1 /\ map fst h1 = map fst h) \/ (hm_push h d v = h ++ [(d, v)] /\ Forall (fun nv => name_eq (fst nv) d = false) h).
  Proof.
    induction h as [|[n w] h IH]; cbn [hm_push]; [right; split; [reflexivity|constructor]|]. destruct (name_eq n d) eqn:F; [left; eexists; split; reflexivity|].
    destruct IH as [(h1 & -> & E)|[-> K]]; [left; eexists; split; [reflexivity|]; cbn [map]; rewrite E; reflexivity|right; split; [reflexivity|constructor; assumption]].
  Qed.
  Lemma one_remove h d : one c h -> one c (fst (hm_remove h d)).
  Proof.
    induction h as [|[n w] h IH]; intros O; [exact O|]. cbn [hm_remove] in *. destruct (name_eq n d); cbn [fst]; [exact (proj2 O)|].
    destruct (hm_remove h d) as [r o] eqn:E. cbn [fst one] in *. split; [|apply IH; tauto]. intros K. destruct O as [O _]. specialize (O K).
    assert (I : incl r h). { clear -E. revert r o E. induction h as [|[m x] h IH]; intros r o E; cbn [hm_remove] in E; [injection E as <- <-; apply incl_refl|].
      destruct (name_eq m d); [injection E as <- <-; apply incl_tl, incl_refl|]. destruct (hm_remove h d) as [r1 o1]. injection E as <- <-. apply incl_cons; [left; reflexivity|apply incl_tl, (IH r1 o1 eq_refl)]. }
    apply Forall_forall. intros x J. rewrite Forall_forall in O. apply O, I, J.
  Qed.
End Calls.
Lemma remove_incl h d : incl (fst (hm_remove h d)) h.
Proof.
  induction h as [|[m x] h IH]; [apply incl_refl|]. cbn [hm_remove]. destruct (name_eq m d); cbn [fst]; [apply incl_tl, incl_refl|]. destruct (hm_remove h d) as [r o]. cbn [fst] in *.
  apply incl_cons; [left; reflexivity|apply incl_tl, IH].
Qed.
Lemma names_bytes h h' : map fst h' = map fst h -> named_bytes h -> named_bytes h'.
Proof.
  intros E B. apply Forall_forall. intros x I. assert (J : In (fst x) (map fst h)) by (rewrite <- E; apply List.in_map, I). apply in_map_iff in J as (y & Y & J).
  unfold named_bytes in B. rewrite Forall_forall in B. rewrite <- Y. exact (B y J).
Qed.
Lemma snoc_bytes h d v : named_bytes h -> bytes_ok d -> named_bytes (h ++ [(d, v)]).
Proof. intros B D. apply Forall_app. split; [exact B|]. constructor; [exact D|constructor]. Qed.
Lemma contains_not h d : hm_contains h d = false -> Forall (fun nv => name_eq (fst nv) d = false) h.
Proof.
  unfold hm_contains. induction h as [|[n w] h IH]; [constructor|]. cbn [hm_get]. destruct (name_eq n d) eqn:F; [discriminate|]. intros H. constructor; [exact F|apply IH, H].
Qed.
Definition constant_op (o : hop) : Prop := Forall a_constant (hop_names o).
Lemma op_step h o : named_bytes h -> constant_op o -> exists h', hop_run h o = Ok h' /\ named_bytes h' /\
  forall c, a_constant c ->
    ((o <> HClear -> Forall (fun n => n <> c) (hop_names o) -> hm_get h' c = hm_get h c) /\ (one c h -> one c h' /\ hm_get h' c = reg_step c (hm_get h c) o)).
Proof.
  assert (BQ : forall a b, a <> b -> beq a b = false) by (intros a b K; destruct (beq a b) eqn:Q; [apply beq_eq in Q; contradiction|reflexivity]).
  intros B D. destruct o as [d v|d v|d| |d v]; cbn [hop_run]; try (pose proof (Forall_inv D) as Dd; clear D).
  - eexists. split; [reflexivity|]. split.
    + destruct (insert_shape h d v) as [(h1 & -> & E)|[-> _]]; [exact (names_bytes _ _ E B)|apply snoc_bytes; [exact B|apply constant_bytes, Dd]].
    + intros c C. rewrite (get_insert c C h d v B Dd). split; [intros _ K; rewrite (BQ d c (Forall_inv K)); reflexivity|]. intros O. split; [|reflexivity].
      destruct (insert_shape h d v) as [(h1 & -> & E)|[-> F]]; [exact (one_names c _ _ E O)|apply (one_snoc c C); [exact Dd|intros <-; exact F|exact O]].
  - eexists. split; [reflexivity|]. split.
    + destruct (push_shape h d v) as [(h1 & -> & E)|[-> _]]; [exact (names_bytes _ _ E B)|apply snoc_bytes; [exact B|apply constant_bytes, Dd]].
    + intros c C. rewrite (get_push c C h d v B Dd). split; [intros _ K; rewrite (BQ d c (Forall_inv K)); reflexivity|]. intros O. split; [|reflexivity].
      destruct (push_shape h d v) as [(h1 & -> & E)|[-> F]]; [exact (one_names c _ _ E O)|apply (one_snoc c C); [exact Dd|intros <-; exact F|exact O]].
  - eexists. split; [reflexivity|]. split; [exact (incl_Forall (remove_incl h d) B)|]. intros c C. split; [intros _ K; exact (get_remove_other c C h d B Dd (Forall_inv K))|].
    intros O. split; [apply one_remove, O|]. cbn [reg_step]. destruct (beq d c) eqn:Q; [apply beq_eq in Q; subst d; apply get_remove, O|].
    apply (get_remove_other c C h d B Dd). intros ->. rewrite (proj2 (beq_eq c c) eq_refl) in Q. discriminate.
  - exists []. split; [reflexivity|]. split; [constructor|]. intros c C. split; [congruence|]. intros _. split; [exact Logic.I|reflexivity].
  - unfold hm_index_mut. destruct (hm_contains h d) eqn:P.
    + destruct (hm_update_present h d (fun _ => v) P) as (h' & E). exists h'. split; [exact E|]. split; [exact (names_bytes _ _ (hm_update_names _ _ _ _ E) B)|]. intros c C.
      destruct (update_get c C h d v B Dd P) as (h2 & E2 & M & G). assert (h2 = h') by congruence. subst h2. split; [intros _ K; rewrite G, (BQ d c (Forall_inv K)); reflexivity|].
      intros O. split; [exact (one_names c _ _ M O)|exact G].
    + assert (B1 : named_bytes (hm_insert h d [])) by (rewrite (hm_insert_new h d [] (contains_not h d P)); apply snoc_bytes; [exact B|apply constant_bytes, Dd]).
      pose proof (hm_contains_insert h d []) as P1. destruct (hm_update_present _ d (fun _ => v) P1) as (h' & E). exists h'. split; [exact E|].
      split; [exact (names_bytes _ _ (hm_update_names _ _ _ _ E) B1)|]. intros c C. destruct (update_get c C _ d v B1 Dd P1) as (h2 & E2 & M & G). assert (h2 = h') by congruence. subst h2.
      rewrite (get_insert c C h d [] B Dd) in G. split; [intros _ K; rewrite G, (BQ d c (Forall_inv K)); reflexivity|]. intros O. split.
      * apply (one_names c _ _ M). rewrite (hm_insert_new h d [] (contains_not h d P)). apply (one_snoc c C); [exact Dd|intros <-; apply contains_not, P|exact O].
      * rewrite G. cbn [reg_step]. destruct (beq d c); reflexivity.
Qed.
Lemma calls_cons h o ops h1 : hop_run h o = Ok h1 -> calls h (o :: ops) = calls h1 ops.
Proof. intros E. unfold calls. cbn [fold_left bind]. rewrite E. reflexivity. Qed.
Lemma calls_others ops : forall h, named_bytes h -> Forall constant_op ops -> exists h', calls h ops = Ok h' /\
  forall c, a_constant c -> Forall (fun o => o <> HClear /\ Forall (fun n => n <> c) (hop_names o)) ops -> hm_get h' c = hm_get h c.
Proof.
  induction ops as [|o ops IH]; intros h B D; [exists h; split; [reflexivity|reflexivity]|]. inversion D as [|? ? D1 D2]; subst.
  destruct (op_step h o B D1) as (h1 & E & B1 & G). destruct (IH h1 B1 D2) as (h' & E' & G'). exists h'. split; [rewrite (calls_cons h o ops h1 E); exact E'|].
  intros c C K. inversion K as [|? ? [K1 K2] K3]; subst. rewrite (G' c C K3). apply (proj1 (G c C)); assumption.
Qed.
Lemma calls_registers ops : forall h, named_bytes h -> single h -> Forall constant_op ops -> exists h', calls h ops = Ok h' /\ single h' /\
  forall c, a_constant c -> hm_get h' c = fold_left (reg_step c) ops (hm_get h c).
Proof.
  induction ops as [|o ops IH]; intros h B S D; [exists h; split; [reflexivity|]; split; [exact S|reflexivity]|]. inversion D as [|? ? D1 D2]; subst.
  destruct (op_step h o B D1) as (h1 & E & B1 & G). assert (S1 : single h1) by (apply single_one; intros c C; apply (proj2 (G c C)), single_one; assumption).
  destruct (IH h1 B1 S1 D2) as (h' & E' & S' & G'). exists h'. split; [rewrite (calls_cons h o ops h1 E); exact E'|]. split; [exact S'|].
  intros c C. rewrite (G' c C). cbn [fold_left]. rewrite (proj2 (proj2 (G c C) (proj1 (single_one h) S c C))). reflexivity.
Qed.

(** Maps of field names are single. *)
Definition fine (h : headers) : Prop := Forall (fun nv => Forall tchar (fst nv)) h /\ distinct_names h.
Lemma taken_both n m c : plain c -> taken_for n c -> taken_for m c -> Forall2 meets n m.
Proof.
  intros P A. revert m P. induction A as [|x y n c H A IH]; intros m P B; inversion B as [|z w m' c' H' B']; subst; constructor.
  - pose proof (Forall_inv P) as Y. cbn in Y. unfold meets. unfold fold_byte in *.
    assert (x < 224 /\ z < 224) by (destruct (65 <=? x) eqn:?, (x <=? 90) eqn:?, (65 <=? z) eqn:?, (z <=? 90) eqn:?; cbn [andb] in *; lia). rewrite !wrap by lia.
    replace (x <? 224) with true by lia. replace (z <? 224) with true by lia.
    destruct (65 <=? x) eqn:?, (x <=? 90) eqn:?, (65 <=? z) eqn:?, (z <=? 90) eqn:?; cbn [andb] in *; lia.
  - apply IH; [inversion P; assumption|assumption].
Qed.
Lemma tchars_bytes n : Forall tchar n -> bytes_ok n.
Proof. intros T. eapply Forall_impl; [|exact T]. intros x K. apply tchar_lt in K. unfold byte_ok. lia. Qed.
Lemma fine_bytes h : fine h -> named_bytes h. Proof. intros [T _]. eapply Forall_impl; [|exact T]. intros nv. apply tchars_bytes. Qed.
Lemma fine_single h : fine h -> single h.
Proof.
  intros [T D]. apply single_one. intros c C. induction h as [|m h IH]; [exact Logic.I|]. inversion T as [|? ? Tm Th]; subst. destruct D as [Dm Dh]. split; [|apply IH; assumption].
  intros K. apply Forall_forall. intros x I. destruct (name_eq (fst x) c) eqn:F; [|reflexivity]. rewrite Forall_forall in Dm, Th. specialize (Dm x I). specialize (Th x I).
  apply constant_taken in K; [|assumption..]. apply constant_taken in F; [|assumption..].
  destruct (eq_true_false_abs _ (proj2 (name_eq_iff _ _ (tchars_bytes _ Tm) (tchars_bytes _ Th)) (taken_both _ _ c (proj2 (constant_plain c C)) K F)) Dm).
Qed.
Lemma distinct_snoc h d v : Forall (fun nv => name_eq (fst nv) d = false) h -> distinct_names h -> distinct_names (h ++ [(d, v)]).
Proof.
  induction 1 as [|m h F N IH]; intros D; cbn [app distinct_names] in *; [auto|]. destruct D as [D1 D2]. split; [apply Forall_app; split; [exact D1|repeat constructor; exact F]|apply IH, D2].
Qed.
Lemma distinct_map h : forall h', map fst h' = map fst h -> distinct_names h -> distinct_names h'.
Proof.
  induction h as [|m h IH]; intros [|m' h'] E D; try discriminate; [exact Logic.I|]. cbn [map distinct_names] in *. injection E as E1 E2. split; [|apply IH; tauto].
  destruct D as [D _]. apply Forall_forall. intros x I. assert (J : In (fst x) (map fst h)) by (rewrite <- E2; apply List.in_map, I). apply in_map_iff in J as (y & Y & J).
  rewrite Forall_forall in D. rewrite E1, <- Y. exact (D y J).
Qed.
Lemma tchars_map (h h' : headers) : map fst h' = map fst h -> Forall (fun nv => Forall tchar (fst nv)) h -> Forall (fun nv : bytes * bytes => Forall tchar (fst nv)) h'.
Proof.
  intros E B. apply Forall_forall. intros x I. assert (J : In (fst x) (map fst h)) by (rewrite <- E; apply List.in_map, I). apply in_map_iff in J as (y & Y & J).
  rewrite Forall_forall in B. rewrite <- Y. exact (B y J).
Qed.
Lemma fine_insert h n v : fine h -> Forall tchar n -> fine (hm_insert h n v).
Proof.
  intros [T D] N. destruct (insert_shape h n v) as [(h1 & -> & E)|[-> F]].
  - split; [exact (tchars_map _ _ E T)|exact (distinct_map _ _ E D)].
  - split; [apply Forall_app; split; [exact T|repeat constructor; exact N]|apply distinct_snoc; assumption].
Qed.
Lemma fine_remove h d : fine h -> fine (fst (hm_remove h d)).
Proof.
  intros [T D]. split; [exact (incl_Forall (remove_incl h d) T)|]. clear T. induction h as [|[n w] h IH]; [exact D|]. cbn [hm_remove]. destruct (name_eq n d); cbn [fst]; [exact (proj2 D)|].
  pose proof (remove_incl h d) as I. destruct (hm_remove h d) as [r o]. cbn [fst distinct_names] in *. split; [exact (incl_Forall I (proj1 D))|apply IH, D].
Qed.
Lemma fine_run h o h' : fine h -> Forall (Forall tchar) (hop_names o) -> hop_run h o = Ok h' -> fine h'.
Proof.
  intros F N E. destruct o as [d v|d v|d| |d v]; cbn [hop_run] in E; try (pose proof (Forall_inv N) as Nd; clear N).
  - injection E as <-. apply fine_insert; assumption.
  - injection E as <-. destruct F as [T D]. destruct (push_shape h d v) as [(h1 & -> & E)|[-> F]].
    + split; [exact (tchars_map _ _ E T)|exact (distinct_map _ _ E D)].
    + split; [apply Forall_app; split; [exact T|repeat constructor; exact Nd]|apply distinct_snoc; assumption].
  - injection E as <-. apply fine_remove, F.
  - injection E as <-. split; [constructor|exact Logic.I].
  - unfold hm_index_mut in E. destruct (hm_contains h d).
    + apply hm_update_names in E. destruct F as [T D]. split; [exact (tchars_map _ _ E T)|exact (distinct_map _ _ E D)].
    + apply hm_update_names in E. destruct (fine_insert h d [] F Nd) as [T D]. split; [exact (tchars_map _ _ E T)|exact (distinct_map _ _ E D)].
Qed.
Lemma fine_calls ops : forall h h', fine h -> Forall (fun o => Forall (Forall tchar) (hop_names o)) ops -> calls h ops = Ok h' -> fine h'.
Proof.
  induction ops as [|o ops IH]; intros h h' F N E; [injection E as <-; exact F|]. inversion N as [|? ? N1 N2]; subst.
  destruct (hop_run h o) as [h1|e| |] eqn:R.
  - rewrite (calls_cons h o ops h1 R) in E. exact (IH h1 h' (fine_run h o h1 F N1 R) N2 E).
  - exfalso. unfold calls in E. cbn [fold_left bind] in E. rewrite R in E. clear -E. induction ops; [discriminate|]. apply IHops, E.
  - exfalso. unfold calls in E. cbn [fold_left bind] in E. rewrite R in E. clear -E. induction ops; [discriminate|]. apply IHops, E.
  - exfalso. unfold calls in E. cbn [fold_left bind] in E. rewrite R in E. clear -E. induction ops; [discriminate|]. apply IHops, E.
Qed.
Lemma fine_parsed fuel : forall h l, fine h -> fine (fst (parse_header_loop fuel h l)).
Proof.
  induction fuel as [|k IH]; intros h l F; [exact F|]. cbn [parse_header_loop]. destruct l as [|b l]; [exact F|]. destruct (b =? 13); [exact F|]. destruct (b =? 10); [exact F|].
  destruct (parse_header_line (b :: l)) as [[[n v] r]|e| |] eqn:E; try exact F. apply IH, fine_insert; [exact F|].
  unfold parse_header_line in E. apply bind_ok in E as ([n1 r1] & E1 & E). apply parse_token_by_ok in E1 as (_ & Hn & Ht & _). pose proof (name_ok_tok _ Hn Ht) as [_ N].
  apply bind_ok in E as ([? ?] & _ & E). apply bind_ok in E as ([? ?] & _ & E). apply bind_ok in E as ([? ?] & _ & E). apply bind_ok in E as ([? ?] & _ & E). apply bind_ok in E as ([? ?] & _ & E).
  injection E as <- _ _. exact N.
Qed.
