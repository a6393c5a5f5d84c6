(** Lemmas for C54. *)
From Coq Require Import NArith Lia Bool List ZifyBool ZifyNat ZifyN.
From Verif Require Import Base M_Ext S_Ext.
Import ListNotations.
Local Open Scope N_scope.

(** Maps *)
Lemma map_get_in {A} (m : list (N * A)) k : map_get m k <> None <-> In k (map fst m).
Proof.
  induction m as [|[k' a] m IH]; cbn [map_get map fst In]; [split; [congruence|contradiction]|].
  destruct (N.eqb_spec k' k) as [E|E]; [split; [auto|discriminate]|]. rewrite IH. tauto.
Qed.
Lemma map_insert_get {A} (m : list (N * A)) k a : snd (map_insert m k a) = map_get m k /\
  forall k', map_get (fst (map_insert m k a)) k' = if k' =? k then Some a else map_get m k'.
Proof.
  induction m as [|[k1 b] m (IH1 & IH2)]; cbn [map_insert map_get].
  - split; [reflexivity|]. intros k'. cbn [fst map_get]. rewrite N.eqb_sym. reflexivity.
  - destruct (N.eqb_spec k1 k) as [->|E].
    + split; [reflexivity|]. intros k'. cbn [fst map_get]. rewrite (N.eqb_sym k' k). destruct (k =? k'); reflexivity.
    + destruct (map_insert m k a) as [m2 o]. cbn [fst snd] in *. split; [exact IH1|]. intros k'. cbn [map_get]. rewrite IH2.
      destruct (N.eqb_spec k1 k') as [->|F]; [|reflexivity]. destruct (N.eqb_spec k' k); [contradiction|reflexivity].
Qed.
Lemma map_insert_keys {A} (m : list (N * A)) k a : NoDup (map fst m) -> NoDup (map fst (fst (map_insert m k a))).
Proof.
  intros H. induction m as [|[k1 b] m IH]; cbn [map_insert].
  - cbn. constructor; [intros []|constructor].
  - cbn [map fst] in H. apply NoDup_cons_iff in H as [H1 H2]. destruct (N.eqb_spec k1 k) as [->|E].
    + cbn [fst map]. constructor; assumption.
    + pose proof (map_insert_get m k a) as [_ G]. specialize (IH H2). destruct (map_insert m k a) as [m2 o]. cbn [fst] in *. cbn [map fst].
      constructor; [|exact IH]. rewrite <- map_get_in. rewrite G. destruct (N.eqb_spec k1 k); [contradiction|]. rewrite map_get_in. exact H1.
Qed.
Lemma map_remove_get {A} (m : list (N * A)) k : NoDup (map fst m) -> snd (map_remove m k) = map_get m k /\
  (forall k', map_get (fst (map_remove m k)) k' = if k' =? k then None else map_get m k') /\ NoDup (map fst (fst (map_remove m k))).
Proof.
  induction m as [|[k1 b] m IH]; intros H; cbn [map_remove map_get].
  - split; [reflexivity|]. split; [intros k'; cbn; destruct (k' =? k); reflexivity|constructor].
  - cbn [map fst] in H. apply NoDup_cons_iff in H as [H1 H2]. destruct (IH H2) as (I1 & I2 & I3). destruct (N.eqb_spec k1 k) as [->|E].
    + split; [reflexivity|]. split; [|exact H2]. intros k'. cbn [fst]. destruct (N.eqb_spec k' k) as [->|F].
      * destruct (map_get m k) eqn:G; [|reflexivity]. exfalso. apply H1. apply map_get_in. congruence.
      * destruct (N.eqb_spec k k'); [congruence|reflexivity].
    + destruct (map_remove m k) as [m2 o]. cbn [fst snd] in *. split; [exact I1|]. split.
      * intros k'. cbn [map_get]. rewrite I2. destruct (N.eqb_spec k1 k') as [->|F]; [|reflexivity]. destruct (N.eqb_spec k' k); [contradiction|reflexivity].
      * cbn [map fst]. constructor; [|exact I3]. rewrite <- map_get_in, I2. destruct (N.eqb_spec k1 k); [contradiction|]. rewrite map_get_in. exact H1.
Qed.
Lemma map_extend_get {A} (o : list (N * A)) : forall m, NoDup (map fst o) -> NoDup (map fst m) ->
  (forall k, map_get (map_extend m o) k = match map_get o k with Some a => Some a | None => map_get m k end) /\ NoDup (map fst (map_extend m o)).
Proof.
  induction o as [|[k a] o IH]; intros m Ho Hm; [split; [reflexivity|exact Hm]|].
  cbn [map fst] in Ho. apply NoDup_cons_iff in Ho as [H1 H2]. unfold map_extend. cbn [fold_left fst snd].
  destruct (IH (fst (map_insert m k a)) H2 (map_insert_keys m k a Hm)) as [I1 I2]. split; [|exact I2].
  intros k'. fold (map_extend (fst (map_insert m k a)) o). rewrite I1. cbn [map_get]. destruct (map_insert_get m k a) as [_ ->].
  rewrite (N.eqb_sym k' k). destruct (N.eqb_spec k k') as [<-|E]; [|reflexivity].
  destruct (map_get o k) eqn:G; [|reflexivity]. exfalso. apply H1. apply map_get_in. congruence.
Qed.

(** Extensions: keys are distinct and each box holds a value of the type it is filed under. *)
Definition entries {V} (e : extensions V) : list (N * boxed V) := match e with Some m => m | None => [] end.
Definition ext_inv {V} (e : extensions V) (m : N -> option V) : Prop :=
  NoDup (map fst (entries e)) /\ forall T, map_get (entries e) T = option_map (fun v => (T, v)) (m T).
Lemma downcast_own {V} T (o : option V) : and_then (option_map (fun v => (T, v)) o) (downcast T) = o.
Proof. destruct o as [v|]; cbn; [|reflexivity]. unfold downcast. cbn. rewrite N.eqb_refl. reflexivity. Qed.

Lemma get_spec {V} (e : extensions V) m : ext_inv e m -> forall T, ext_get e T = m T.
Proof.
  intros [_ H] T. unfold ext_get. specialize (H T). destruct e as [l|]; cbn [entries and_then] in *.
  - rewrite H. apply downcast_own.
  - cbn [map_get] in H. destruct (m T); [discriminate H|reflexivity].
Qed.
Lemma insert_spec {V} (e : extensions V) m T v : ext_inv e m ->
  snd (ext_insert e T v) = m T /\ ext_inv (fst (ext_insert e T v)) (fun U => if U =? T then Some v else m U).
Proof.
  intros [D H]. unfold ext_insert. change (match e with Some m => m | None => [] end) with (entries e).
  pose proof (map_insert_get (entries e) T (T, v)) as [G1 G2]. pose proof (map_insert_keys (entries e) T (T, v) D) as K.
  destruct (map_insert (entries e) T (T, v)) as [l o]. cbn [fst snd] in *. split; [rewrite G1, H; apply downcast_own|].
  split; [exact K|]. intros U. cbn [entries]. rewrite G2. destruct (N.eqb_spec U T) as [->|E]; [reflexivity|apply H].
Qed.
Lemma remove_spec {V} (e : extensions V) m T : ext_inv e m ->
  snd (ext_remove e T) = m T /\ ext_inv (fst (ext_remove e T)) (fun U => if U =? T then None else m U).
Proof.
  intros [D H]. destruct e as [l|]; cbn [entries] in *.
  - unfold ext_remove. destruct (map_remove_get l T D) as (G1 & G2 & G3). destruct (map_remove l T) as [l' o]. cbn [fst snd] in *.
    split; [rewrite G1, H; apply downcast_own|]. split; [exact G3|]. intros U. cbn [entries]. rewrite G2. destruct (U =? T); [reflexivity|apply H].
  - cbn [ext_remove fst snd]. split; [specialize (H T); cbn in H; destruct (m T); [discriminate H|reflexivity]|].
    split; [exact D|]. intros U. cbn [entries map_get]. destruct (U =? T); [reflexivity|apply H].
Qed.
Lemma get_mut_spec {V} (e : extensions V) m T v : ext_inv e m -> snd (ext_get_mut e T v) = m T /\
  ext_inv (fst (ext_get_mut e T v)) (fun U => if U =? T then match m T with Some _ => Some v | None => None end else m U).
Proof.
  intros [D H]. destruct e as [l|]; cbn [entries] in *.
  - unfold ext_get_mut. rewrite H. destruct (m T) as [old|] eqn:E; cbn [option_map].
    + unfold downcast. cbn [fst snd]. rewrite N.eqb_refl. cbn [fst snd]. split; [reflexivity|].
      destruct (map_insert_get l T (T, v)) as [_ G2]. split; [cbn [entries]; apply map_insert_keys, D|].
      intros U. cbn [entries]. rewrite G2. destruct (N.eqb_spec U T) as [->|F]; [reflexivity|apply H].
    + cbn [fst snd]. split; [reflexivity|]. split; [exact D|]. intros U. cbn [entries]. rewrite H. destruct (N.eqb_spec U T) as [->|F]; [rewrite E; reflexivity|reflexivity].
  - cbn [ext_get_mut fst snd]. assert (N : forall U, m U = None) by (intros U; specialize (H U); cbn in H; destruct (m U); [discriminate H|reflexivity]).
    split; [symmetry; apply N|]. split; [exact D|]. intros U. cbn [entries map_get]. rewrite !N. destruct (U =? T); reflexivity.
Qed.
Lemma clear_spec {V} (e : extensions V) : ext_inv (ext_clear e) (fun _ => None).
Proof. destruct e; split; cbn; try constructor; reflexivity. Qed.
Lemma extend_spec {V} (e e' : extensions V) m m' : ext_inv e m -> ext_inv e' m' ->
  ext_inv (ext_extend e e') (fun U => match m' U with Some v => Some v | None => m U end).
Proof.
  intros [D H] [D' H']. destruct e' as [o|]; cbn [entries ext_extend] in *.
  - destruct e as [l|]; cbn [entries] in *.
    + destruct (map_extend_get o l D' D) as [G1 G2]. split; [exact G2|]. intros U. cbn [entries]. rewrite G1, H', H. destruct (m' U); reflexivity.
    + split; [exact D'|]. intros U. cbn [entries]. rewrite H'. specialize (H U). cbn in H. destruct (m' U); [reflexivity|exact H].
  - split; [exact D|]. intros U. rewrite H. specialize (H' U). cbn in H'. destruct (m' U); [discriminate H'|reflexivity].
Qed.
Lemma built_inv {V} (e : extensions V) m : built e m -> ext_inv e m.
Proof.
  induction 1 as [|e m T v _ IH|e m T _ IH|e m T v _ IH|e m _ IH|e m e' m' _ IH _ IH'].
  - split; [constructor|reflexivity].
  - apply insert_spec, IH.
  - apply remove_spec, IH.
  - apply get_mut_spec, IH.
  - apply clear_spec.
  - apply extend_spec; assumption.
Qed.
Lemma len_spec {V} (e : extensions V) m : ext_inv e m -> counts m (ext_len e) /\ (ext_is_empty e = true <-> forall T, m T = None).
Proof.
  intros [D H]. assert (L : ext_len e = N.of_nat (length (entries e))) by (destruct e; reflexivity).
  assert (G : forall T, In T (map fst (entries e)) <-> m T <> None).
  { intros T. rewrite <- map_get_in, H. destruct (m T); cbn; split; intros K; first [discriminate|contradiction K; reflexivity]. }
  split; [exists (map fst (entries e)); split; [exact D|]; split; [rewrite L, map_length; reflexivity|exact G]|].
  assert (E : ext_is_empty e = true <-> entries e = []) by (destruct e as [[|]|]; cbn; split; intros K; first [reflexivity|discriminate K]).
  rewrite E. split.
  - intros K T. rewrite K in G. destruct (m T) eqn:M; [|reflexivity]. destruct (proj2 (G T)). congruence.
  - intros K. destruct (entries e) as [|[k b] l]; [reflexivity|]. destruct (proj1 (G k)); [left; reflexivity|apply K].
Qed.
