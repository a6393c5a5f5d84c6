(** Lemmas for C97. *)
From Coq Require Import Ascii String NArith ZArith Lia Bool List ZifyBool ZifyNat ZifyN.
From Verif Require Import Base P_Base M_Std M_Helper M_Header M_Build M_Full S_Full P_Map.
Import ListNotations.
Local Open Scope N_scope.

Lemma sys_insert_get s k v k' : sys_get (sys_insert s k v) k' = if beq k k' then Some v else sys_get s k'.
Proof.
  induction s as [|[a b] s IH]; cbn [sys_insert sys_get]; [reflexivity|].
  destruct (beq a k) eqn:E; cbn [sys_get].
  - apply beq_eq in E. subst a. destruct (beq k k'); reflexivity.
  - rewrite IH. destruct (beq a k') eqn:F; [|reflexivity]. apply beq_eq in F. subst a.
    destruct (beq k k') eqn:G; [|reflexivity]. apply beq_eq in G. subst k. rewrite beq_refl in E. discriminate.
Qed.
Lemma run_systems cs : forall m k, sys_get (fm_systems (fm_run m cs)) k = given k (sys_get (fm_systems m) k) cs.
Proof.
  induction cs as [|c cs IH]; intros m k; [reflexivity|]. unfold fm_run, given in *. cbn [fold_left]. rewrite IH.
  destruct c; cbn [fm_run1 fm_systems]; try reflexivity. rewrite sys_insert_get. reflexivity.
Qed.
Lemma run_fields_only cs : forall m, fm_fields (fm_run m cs) = fm_fields (fm_run m (filter field_call cs)).
Proof.
  assert (G : forall cs m m', fm_fields m = fm_fields m' -> fm_fields (fm_run m cs) = fm_fields (fm_run m' (filter field_call cs))).
  { clear cs. induction cs as [|c cs IH]; intros m m' E; [exact E|]. cbn [filter]. unfold fm_run in *.
    destruct c; cbn [field_call fold_left]; apply IH; cbn [fm_run1 fm_fields]; rewrite ?E; reflexivity. }
  intros m. apply G. reflexivity.
Qed.
(** No key twice. *)
Definition keys_distinct (s : systems) : Prop := NoDup (map fst s).
Lemma sys_get_in s k v : sys_get s k = Some v -> In (k, v) s.
Proof.
  induction s as [|[a b] s IH]; [discriminate|]. cbn [sys_get]. destruct (beq a k) eqn:E.
  - apply beq_eq in E. intros H. injection H as <-. subst a. left. reflexivity.
  - intros H. right. apply IH, H.
Qed.
Lemma sys_get_none s k : sys_get s k = None <-> ~ In k (map fst s).
Proof.
  induction s as [|[a b] s IH]; cbn [sys_get map fst]; [split; [intros _ []|reflexivity]|].
  destruct (beq a k) eqn:E.
  - apply beq_eq in E. subst a. split; [discriminate|]. intros H. exfalso. apply H. left. reflexivity.
  - rewrite IH. split.
    + intros H [F|F]; [subst a; rewrite beq_refl in E; discriminate|exact (H F)].
    + intros H F. apply H. right. exact F.
Qed.
Lemma sys_in_get s k v : keys_distinct s -> In (k, v) s -> sys_get s k = Some v.
Proof.
  induction s as [|[a b] s IH]; [intros _ []|]. intros D [E|H]; cbn [sys_get].
  - injection E as -> ->. rewrite beq_refl. reflexivity.
  - inversion D as [|x y Hn Hd]. subst. destruct (beq a k) eqn:E; [|apply IH; assumption].
    apply beq_eq in E. subst a. exfalso. apply Hn. apply (List.in_map fst) in H. exact H.
Qed.
Lemma insert_keys s k v : forall x, In x (map fst (sys_insert s k v)) <-> x = k \/ In x (map fst s).
Proof.
  intros x. induction s as [|[a b] s IH]; cbn [sys_insert map fst].
  - cbn. intuition.
  - destruct (beq a k) eqn:E; cbn [map fst In].
    + apply beq_eq in E. subst a. intuition.
    + rewrite IH. intuition.
Qed.
Lemma insert_distinct s k v : keys_distinct s -> keys_distinct (sys_insert s k v).
Proof.
  unfold keys_distinct. induction s as [|[a b] s IH]; intros D; cbn [sys_insert map fst].
  - repeat constructor. intros [].
  - inversion D as [|x y Hn Hd]. subst. destruct (beq a k) eqn:E; cbn [map fst]; [constructor; assumption|].
    constructor; [|apply IH; assumption]. rewrite insert_keys. intros [F|F]; [subst a; rewrite beq_refl in E; discriminate|exact (Hn F)].
Qed.
Lemma run_distinct cs : forall m, keys_distinct (fm_systems m) -> keys_distinct (fm_systems (fm_run m cs)).
Proof.
  induction cs as [|c cs IH]; intros m D; [exact D|]. unfold fm_run in *. cbn [fold_left]. apply IH.
  destruct c; cbn [fm_run1 fm_systems]; try exact D. apply insert_distinct, D.
Qed.
Lemma sys_eqb_ok a b : keys_distinct a -> keys_distinct b -> (sys_eqb a b = true <-> forall k, sys_get a k = sys_get b k).
Proof.
  intros Da Db. unfold sys_eqb. rewrite andb_true_iff, forallb_forall. split.
  - intros [L H].
    assert (I : incl (map fst a) (map fst b)).
    { intros k Hk. apply in_map_iff in Hk. destruct Hk as ([k' v] & <- & Hin). specialize (H _ Hin). cbn [fst snd] in *.
      destruct (sys_get b k') as [w|] eqn:E; [|discriminate]. apply sys_get_in in E. apply (List.in_map fst) in E. exact E. }
    assert (J : incl (map fst b) (map fst a)).
    { apply NoDup_length_incl; [exact Da| |exact I]. rewrite !map_length. lia. }
    intros k. destruct (sys_get a k) as [v|] eqn:E.
    + apply sys_get_in in E. specialize (H _ E). cbn [fst snd] in H. destruct (sys_get b k) as [w|]; [|discriminate].
      apply beq_eq in H. subst w. reflexivity.
    + symmetry. apply sys_get_none. rewrite sys_get_none in E. intros F. apply E, J, F.
  - intros H.
    assert (I : forall k, In k (map fst a) <-> In k (map fst b)).
    { intros k. destruct (sys_get a k) as [v|] eqn:E.
      - pose proof E as E'. rewrite H in E'. apply sys_get_in in E, E'. apply (List.in_map fst) in E, E'. tauto.
      - pose proof E as E'. rewrite H in E'. rewrite sys_get_none in E, E'. tauto. }
    split.
    + assert (length (map fst a) = length (map fst b)) as L.
      { apply Nat.le_antisymm; apply NoDup_incl_length; try assumption; intros k Hk; apply I, Hk. }
      rewrite !map_length in L. lia.
    + intros [k v] Hin. cbn [fst snd]. rewrite <- H. rewrite (sys_in_get a k v Da Hin). apply beq_refl.
Qed.
Lemma fields_eqb_ok a : forall b, fields_eqb a b = true <-> same_fields a b.
Proof.
  unfold same_fields. induction a as [|[n v] a IH]; intros [|[n' v'] b]; cbn [fields_eqb].
  - split; [constructor|reflexivity].
  - split; [discriminate|]. intros H. inversion H.
  - split; [discriminate|]. intros H. inversion H.
  - rewrite !andb_true_iff, IH, beq_eq. split.
    + intros [[E F] G]. constructor; [split; assumption|exact G].
    + intros H. inversion H as [|? ? ? ? [E F] G]. subst. auto.
Qed.
