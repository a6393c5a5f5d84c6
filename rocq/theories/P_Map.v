(** Lemmas on header names, the header map and integers in header values. *)
From Coq Require Import Ascii String NArith ZArith Lia Bool List ZifyBool ZifyNat ZifyN.
From Verif Require Import Base P_Base M_Std P_Std M_Helper M_Header M_Url M_Http1 S_Http1 S_Http1Api S_Map P_Helper P_Header P_Http1 P_Msg.
Import ListNotations.
Local Open Scope N_scope.
Ltac Zify.zify_post_hook ::= Z.div_mod_to_equations.

(** ** Names *)
Lemma eq_byte_ic_iff x y : x < 256 -> y < 256 ->
  (eq_byte_ic x y = true <-> x = y \/ (x + 32) mod 256 = y \/ (y + 32) mod 256 = x).
Proof. intros Hx Hy. unfold eq_byte_ic. destruct (x =? y) eqn:E; cbv zeta; lia. Qed.
Lemma fold_eq_ic x y : fold_byte x = fold_byte y -> x < 256 -> y < 256 -> eq_byte_ic x y = true.
Proof.
  intros H Hx Hy. apply eq_byte_ic_iff; [assumption..|]. unfold fold_byte in H.
  destruct ((65 <=? x) && (x <=? 90)) eqn:E1, ((65 <=? y) && (y <=? 90)) eqn:E2; lia.
Qed.
Lemma fold_name_eq a : forall b, bytes_ok a -> bytes_ok b -> fold_name a = fold_name b -> name_eq a b = true.
Proof.
  unfold name_eq. induction a as [|x a IH]; intros [|y b] Ha Hb H; try discriminate; [reflexivity|].
  apply bytes_ok_cons in Ha as [Hx Ha]. apply bytes_ok_cons in Hb as [Hy Hb].
  unfold fold_name in H. cbn [map] in H. injection H as H1 H2. cbn [eq_bytes_ic].
  rewrite (fold_eq_ic x y H1 Hx Hy). apply IH; assumption.
Qed.
Lemma name_eq_iff a b : bytes_ok a -> bytes_ok b ->
  (name_eq a b = true <-> Forall2 (fun x y => x = y \/ (x + 32) mod 256 = y \/ (y + 32) mod 256 = x) a b).
Proof.
  unfold name_eq. revert b. induction a as [|x a IH]; intros [|y b] Ha Hb; cbn [eq_bytes_ic].
  - split; [constructor|reflexivity].
  - split; [discriminate|intros H; inversion H].
  - split; [discriminate|intros H; inversion H].
  - apply bytes_ok_cons in Ha as [Hx Ha]. apply bytes_ok_cons in Hb as [Hy Hb].
    rewrite andb_true_iff, (eq_byte_ic_iff x y Hx Hy), (IH b Ha Hb). split.
    + intros [H1 H2]. constructor; assumption.
    + intros H. inversion H; subst. auto.
Qed.
(** Names of token characters are below 127, so nothing wraps. *)
Lemma tchar_lt b : tchar b -> 33 <= b < 127.
Proof.
  intros [[H|H]|[H|H]]; unfold upper, lower, digit in *; try lia. cbn in H.
  repeat destruct H as [<-|H]; try lia.
Qed.
Lemma tchars_ok n : Forall tchar n -> bytes_ok n.
Proof. intros H. eapply Forall_impl; [|exact H]. intros b Hb. apply tchar_lt in Hb. unfold byte_ok. lia. Qed.
Lemma clash_name a : forall b, Forall tchar a -> Forall tchar b -> clash_free a b ->
  name_eq a b = true -> fold_name a = fold_name b.
Proof.
  unfold name_eq. induction a as [|x a IH]; intros [|y b] Ha Hb C H; try discriminate; [reflexivity|].
  inversion Ha as [|? ? Hx Ha']; inversion Hb as [|? ? Hy Hb']; subst. cbn [eq_bytes_ic] in H.
  apply andb_true_iff in H as [H1 H2]. cbn [fold_name map]. f_equal.
  - pose proof (tchar_lt x Hx). pose proof (tchar_lt y Hy). apply eq_byte_ic_iff in H1; [|lia..].
    assert (D : x = y \/ (x = y + 32 \/ y = x + 32)) by lia. destruct D as [->|D]; [reflexivity|].
    destruct (C 0%nat x y eq_refl eq_refl D) as [Ax Ay].
    unfold alpha, upper, lower in *. unfold fold_byte.
    destruct ((65 <=? x) && (x <=? 90)) eqn:E1, ((65 <=? y) && (y <=? 90)) eqn:E2; lia.
  - apply IH; try assumption. intros i u v Hu Hv. apply (C (S i)); assumption.
Qed.
Lemma clash_name_iff a b : Forall tchar a -> Forall tchar b -> clash_free a b ->
  (name_eq a b = true <-> fold_name a = fold_name b).
Proof.
  intros Ha Hb C. split; [apply clash_name; assumption|]. apply fold_name_eq; apply tchars_ok; assumption.
Qed.
Lemma alpha_clash_free a b : Forall alpha a -> Forall alpha b -> clash_free a b.
Proof.
  intros Ha Hb i x y Hx Hy _. rewrite Forall_forall in Ha, Hb.
  split; [apply Ha; eapply nth_error_In, Hx|apply Hb; eapply nth_error_In, Hy].
Qed.
Lemma lower_clash_free a b : Forall lower_tchar a -> Forall lower_tchar b -> clash_free a b.
Proof.
  intros Ha Hb i x y Hx Hy D. exfalso. rewrite Forall_forall in Ha, Hb.
  specialize (Ha x (nth_error_In _ _ Hx)). specialize (Hb y (nth_error_In _ _ Hy)).
  assert (G : forall x y, lower_tchar x -> lower_tchar y -> x = y + 32 -> False).
  { clear. intros x y (Hx & Ux & Cx) (Hy & Uy & Cy) E.
    pose proof (tchar_lt _ Hx). pose proof (tchar_lt _ Hy).
    clear Hx. unfold upper in *. destruct Hy as [[K|K]|[K|K]]; unfold upper, lower, digit in K; try lia.
    cbn in K. repeat destruct K as [<-|K]; lia. }
  destruct D as [D|D]; [apply (G x y)|apply (G y x)]; assumption.
Qed.
Lemma fold_lower n : Forall lower_tchar n -> fold_name n = n.
Proof.
  intros H. unfold fold_name. induction H as [|b n (_ & U & _) _ IH]; [reflexivity|]. cbn [map]. rewrite IH. f_equal.
  unfold fold_byte, upper in *. destruct ((65 <=? b) && (b <=? 90)) eqn:E; lia.
Qed.
Lemma hash_is_fold n : name_hash_input n = fold_name n.
Proof. reflexivity. Qed.

(** ** The map against the abstract one *)
Section Refine.
  Variable names : list bytes.
  Hypothesis regular : forall a b, In a names -> In b names -> (name_eq a b = true <-> fold_name a = fold_name b).

  (** The list view of the invariant: entries with pairwise different folded
      names; the value function is the lookup in them. *)
  Fixpoint look (h : headers) (k : bytes) : option bytes :=
    match h with
    | [] => None
    | (n, v) :: h' => if beq k (fold_name n) then Some v else look h' k
    end.
  Definition repr (h : headers) (m : amap) : Prop :=
    map fst h = a_order m /\ Forall (fun n => In n names) (map fst h) /\ NoDup (map fold_name (map fst h)) /\
    forall k, a_val m k = look h k.
  Lemma eq_reg a b : In a names -> In b names -> name_eq a b = beq (fold_name b) (fold_name a).
  Proof.
    intros Ha Hb. destruct (name_eq a b) eqn:E.
    - apply regular in E; [|assumption..]. rewrite E. symmetry. apply beq_refl.
    - symmetry. apply not_true_iff_false. intros K. apply beq_eq in K. symmetry in K. apply regular in K; [congruence|assumption..].
  Qed.
  Lemma look_none h k : look h k = None <-> ~ In k (map fold_name (map fst h)).
  Proof.
    induction h as [|[n v] h IH]; [cbn; tauto|]. cbn [look map In fst]. destruct (beq k (fold_name n)) eqn:E.
    - apply beq_eq in E. split; [discriminate|]. intros H. exfalso. apply H. left. auto.
    - rewrite IH. split; [|tauto]. intros H [K|K]; [|auto]. subst k. rewrite beq_refl in E. discriminate.
  Qed.
  Lemma get_look h n : Forall (fun n => In n names) (map fst h) -> In n names -> hm_get h n = look h (fold_name n).
  Proof.
    intros H Hn. induction h as [|[n' v] h IH]; [reflexivity|]. cbn [map fst] in H. inversion H; subst.
    cbn [hm_get look]. rewrite eq_reg by assumption. destruct (beq (fold_name n) (fold_name n')); [reflexivity|auto].
  Qed.
  (** Updating the first match, or appending, in one function. *)
  Fixpoint put (h : headers) (n : bytes) (f : option bytes -> bytes) : headers :=
    match h with
    | [] => [(n, f None)]
    | (n', v') :: h' => if name_eq n' n then (n', f (Some v')) :: h' else (n', v') :: put h' n f
    end.
  Lemma insert_put h n v : hm_insert h n v = put h n (fun _ => v).
  Proof. induction h as [|[n' v'] h IH]; [reflexivity|]. cbn [hm_insert put]. destruct (name_eq n' n); [reflexivity|f_equal; exact IH]. Qed.
  Lemma push_put h n v : hm_push h n v = put h n (fun o => match o with Some w => w ++ [59] ++ v | None => v end).
  Proof. induction h as [|[n' v'] h IH]; [reflexivity|]. cbn [hm_push put]. destruct (name_eq n' n); [reflexivity|f_equal; exact IH]. Qed.
  Lemma update_put h n v : hm_get h n <> None -> hm_update h n (fun _ => v) = Ok (put h n (fun _ => v)).
  Proof.
    induction h as [|[n' v'] h IH]; intros H; [contradiction|]. cbn [hm_get hm_update put] in *.
    destruct (name_eq n' n); [reflexivity|]. rewrite IH by exact H. reflexivity.
  Qed.
  Lemma insert_get h n v : hm_get (hm_insert h n v) n <> None.
  Proof.
    induction h as [|[n' v'] h IH]; cbn [hm_insert hm_get].
    - rewrite name_eq_refl. discriminate.
    - destruct (name_eq n' n) eqn:E; cbn [hm_get]; rewrite E; [discriminate|exact IH].
  Qed.
  Lemma put_put h n v w : put (put h n (fun _ => v)) n (fun _ => w) = put h n (fun _ => w).
  Proof.
    induction h as [|[n' v'] h IH]; cbn [put].
    - rewrite name_eq_refl. reflexivity.
    - destruct (name_eq n' n) eqn:E; cbn [put]; rewrite E; [reflexivity|f_equal; exact IH].
  Qed.
  Lemma index_mut_put h n v : hm_index_mut h n (fun _ => v) = Ok (put h n (fun _ => v)).
  Proof.
    unfold hm_index_mut, hm_contains. destruct (hm_get h n) eqn:E.
    - apply update_put. congruence.
    - rewrite update_put by apply insert_get. rewrite insert_put, put_put. reflexivity.
  Qed.
  Lemma put_names h n f : Forall (fun n => In n names) (map fst h) -> In n names ->
    map fst (put h n f) = match look h (fold_name n) with Some _ => map fst h | None => map fst h ++ [n] end.
  Proof.
    intros H Hn. induction h as [|[n' v'] h IH]; [reflexivity|]. cbn [map fst] in H. inversion H; subst.
    cbn [put look]. rewrite eq_reg by assumption. destruct (beq (fold_name n) (fold_name n')); [reflexivity|].
    cbn [map fst]. rewrite IH by assumption. destruct (look h (fold_name n)); reflexivity.
  Qed.
  Lemma put_look h n f k : Forall (fun n => In n names) (map fst h) -> In n names ->
    look (put h n f) k = if beq k (fold_name n) then Some (f (look h (fold_name n))) else look h k.
  Proof.
    intros H Hn. induction h as [|[n' v'] h IH]; [reflexivity|]. cbn [map fst] in H. inversion H; subst.
    cbn [put look]. rewrite eq_reg by assumption. destruct (beq (fold_name n) (fold_name n')) eqn:E.
    - cbn [look]. apply beq_eq in E. rewrite <- E. destruct (beq k (fold_name n)); reflexivity.
    - cbn [look]. rewrite IH by assumption. destruct (beq k (fold_name n')) eqn:K; [|reflexivity].
      apply beq_eq in K. subst k. rewrite (beq_sym (fold_name n') (fold_name n)), E. reflexivity.
  Qed.
  Lemma repr_put h m n f v : repr h m -> In n names -> v = f (a_val m (fold_name n)) -> repr (put h n f) (a_put m n v).
  Proof.
    intros (H1 & H2 & H3 & H4) Hn ->. unfold repr, a_put. cbn [a_order a_val].
    rewrite put_names by assumption. rewrite H4.
    split; [destruct (look h (fold_name n)); rewrite H1; reflexivity|]. split; [|split].
    - destruct (look h (fold_name n)); [assumption|]. apply Forall_app. split; [assumption|]. constructor; [assumption|constructor].
    - destruct (look h (fold_name n)) eqn:L; [assumption|]. apply look_none in L. rewrite map_app.
      cbn [map]. apply NoDup_Add with (a := fold_name n) (l := map fold_name (map fst h)).
      + rewrite <- (app_nil_r (map fold_name (map fst h))) at 1. apply Add_app.
      + split; assumption.
    - intros k. rewrite put_look by assumption. rewrite H4. reflexivity.
  Qed.
  Lemma remove_spec h n : Forall (fun n => In n names) (map fst h) -> NoDup (map fold_name (map fst h)) -> In n names ->
    snd (hm_remove h n) = look h (fold_name n) /\
    fst (hm_remove h n) = filter (fun nv => negb (beq (fold_name (fst nv)) (fold_name n))) h.
  Proof.
    intros H D Hn. induction h as [|[n' v'] h IH]; [split; reflexivity|]. cbn [map fst] in H, D.
    inversion H as [|? ? Hn' H']; inversion D as [|? ? D1 D2]; subst.
    cbn [hm_remove look filter fst]. rewrite eq_reg by assumption. rewrite (beq_sym (fold_name n')).
    destruct (beq (fold_name n) (fold_name n')) eqn:E; cbn [negb fst snd].
    - split; [reflexivity|]. apply beq_eq in E. rewrite <- E in D1. clear - D1.
      symmetry. induction h as [|[n2 v2] h IH]; [reflexivity|]. cbn [filter fst map] in *.
      rewrite (proj2 (beq_neq _ _)) by (intros K; apply D1; left; exact K). cbn [negb]. f_equal. apply IH. intros K. apply D1. right. exact K.
    - destruct (IH H' D2) as [I1 I2]. destruct (hm_remove h n) as [r o]. cbn [fst snd] in *. subst. split; reflexivity.
  Qed.
  Lemma look_filter h n k :
    look (filter (fun nv => negb (beq (fold_name (fst nv)) (fold_name n))) h) k =
    if beq k (fold_name n) then None else look h k.
  Proof.
    induction h as [|[n' v'] h IH]; cbn [filter fst look]; [destruct (beq k (fold_name n)); reflexivity|].
    destruct (beq (fold_name n') (fold_name n)) eqn:E; cbn [negb].
    - rewrite IH. apply beq_eq in E. rewrite E. destruct (beq k (fold_name n)); reflexivity.
    - cbn [look]. rewrite IH. destruct (beq k (fold_name n')) eqn:K; [|reflexivity].
      apply beq_eq in K. subst k. rewrite E. reflexivity.
  Qed.
  Lemma map_filter {A B} (f : A -> B) p (l : list A) : map f (filter (fun a => p (f a)) l) = filter p (map f l).
  Proof. induction l as [|a l IH]; [reflexivity|]. cbn [filter map]. destruct (p (f a)); cbn [map]; rewrite IH; reflexivity. Qed.
  Lemma NoDup_filter_map {A B} (f : A -> B) p (l : list A) : NoDup (map f l) -> NoDup (map f (filter p l)).
  Proof.
    induction l as [|a l IH]; intros H; [constructor|]. cbn [map] in H. inversion H; subst. cbn [filter].
    destruct (p a); [|auto]. cbn [map]. constructor; [|auto]. intros K. apply H2.
    apply in_map_iff in K as (x & <- & K). apply filter_In in K as [K _]. apply List.in_map. exact K.
  Qed.
  Lemma repr_remove h m n : repr h m -> In n names -> repr (fst (hm_remove h n)) (a_step m (HRemove n)).
  Proof.
    intros (H1 & H2 & H3 & H4) Hn. destruct (remove_spec h n H2 H3 Hn) as [_ E]. rewrite E.
    unfold repr. cbn [a_step a_order a_val].
    rewrite (map_filter fst (fun n' => negb (beq (fold_name n') (fold_name n)))), H1.
    rewrite H1 in H2, H3. split; [reflexivity|]. split; [|split].
    - apply Forall_forall. intros x Hx. apply filter_In in Hx as [Hx _]. rewrite Forall_forall in H2. auto.
    - apply NoDup_filter_map. exact H3.
    - intros k. rewrite look_filter, H4. reflexivity.
  Qed.
  Lemma repr_step h m o : repr h m -> Forall (fun n => In n names) (hop_names o) ->
    exists h', hop_run h o = Ok h' /\ repr h' (a_step m o).
  Proof.
    intros R H. destruct o as [n v|n v|n| |n v]; cbn [hop_names] in H; try (apply Forall_inv in H); cbn [hop_run a_step].
    - eexists. split; [reflexivity|]. rewrite insert_put. apply repr_put; auto.
    - eexists. split; [reflexivity|]. rewrite push_put. apply repr_put; auto.
    - eexists. split; [reflexivity|]. apply repr_remove; assumption.
    - eexists. split; [reflexivity|]. repeat split; cbn; constructor.
    - rewrite index_mut_put. eexists. split; [reflexivity|]. apply repr_put; auto.
  Qed.
  Lemma repr_run ops : Forall (fun o => Forall (fun n => In n names) (hop_names o)) ops ->
    exists h, hops_run ops = Ok h /\ repr h (a_run ops).
  Proof.
    unfold hops_run, a_run. induction ops as [|o ops IH] using rev_ind; intros H.
    - exists []. repeat split; cbn; constructor.
    - apply Forall_app in H as [H Ho]. apply Forall_inv in Ho. destruct (IH H) as (h & E & R).
      rewrite !fold_left_app, E. cbn [fold_left bind]. apply repr_step; assumption.
  Qed.
  Lemma repr_items h m : repr h m -> map (fun nv => (fst nv, Some (snd nv))) h = a_items m.
  Proof.
    intros (H1 & _ & H3 & H4). unfold a_items. rewrite <- H1, map_map.
    apply map_ext_in. intros [n v] Hin. cbn [fst snd]. f_equal. rewrite H4.
    clear - H3 Hin. induction h as [|[n' v'] h IH]; [destruct Hin|]. cbn [map fst] in H3. inversion H3; subst.
    cbn [look]. destruct Hin as [K|K].
    - injection K as -> ->. rewrite beq_refl. reflexivity.
    - rewrite (proj2 (beq_neq _ _)); [apply IH; assumption|]. intros K2. apply H1. rewrite <- K2.
      apply List.in_map. change n with (fst (n, v)). apply List.in_map. exact K.
  Qed.
  Lemma map_refines ops : Forall (fun o => Forall (fun n => In n names) (hop_names o)) ops ->
    exists h, hops_run ops = Ok h /\
      map (fun nv => (fst nv, Some (snd nv))) h = a_items (a_run ops) /\
      (forall n, In n names ->
         hm_get h n = a_val (a_run ops) (fold_name n) /\
         hm_contains h n = match a_val (a_run ops) (fold_name n) with Some _ => true | None => false end /\
         hm_get_value h n = match a_val (a_run ops) (fold_name n) with Some v => Ok v | None => Panic end /\
         snd (hm_remove h n) = a_val (a_run ops) (fold_name n)).
  Proof.
    intros H. destruct (repr_run ops H) as (h & E & R). exists h. split; [exact E|].
    split; [apply repr_items, R|]. intros n Hn. destruct R as (H1 & H2 & H3 & H4).
    unfold hm_contains, hm_get_value. rewrite get_look, <- H4 by assumption. repeat split.
    rewrite H4. apply remove_spec; assumption.
  Qed.
End Refine.

(** ** Integers in values *)
Definition numacc (r : N) (ds : bytes) : N := fold_left (fun a b => 10 * a + (b - 48)) ds r.
Lemma numacc_0 ds : numacc 0 ds = num_of ds. Proof. reflexivity. Qed.
Lemma numacc_ge ds : forall r, r <= numacc r ds.
Proof. induction ds as [|b ds IH]; intros r; [apply N.le_refl|]. cbn [numacc fold_left]. specialize (IH (10 * r + (b - 48))). unfold numacc in IH. lia. Qed.
Lemma is_digit_iff b : is_digit b = true <-> digit b.
Proof. unfold is_digit, digit. lia. Qed.
Lemma digit_not_minus b : digit b -> b <> 45.
Proof. unfold digit. lia. Qed.

Lemma usize_loop_ok l : forall r n, value_usize_loop r l = Ok n <-> Forall digit l /\ numacc r l = n /\ (l = [] \/ n < 2 ^ 64).
Proof.
  unfold usize_max1. induction l as [|b l IH]; intros r n; cbn [value_usize_loop].
  - cbn [numacc fold_left]. split; [intros H; injection H as <-|intros (_ & <- & _)]; auto using Forall_nil.
  - unfold usize_max1 in *. destruct (is_digit b) eqn:D.
    2: { split; [discriminate|]. intros (H & _). apply Forall_inv, is_digit_iff in H. congruence. }
    apply is_digit_iff in D. cbn [numacc fold_left]. fold (numacc (10 * r + (b - 48)) l).
    replace (10 * r + (b - 48)) with (r * 10 + (b - 48)) by lia. pose proof (numacc_ge l (r * 10 + (b - 48))) as G.
    destruct (2 ^ 64 <=? r * 10) eqn:E1; [split; [discriminate|intros (_ & <- & [K|K]); [discriminate|lia]]|].
    destruct (2 ^ 64 <=? r * 10 + (b - 48)) eqn:E2; [split; [discriminate|intros (_ & <- & [K|K]); [discriminate|lia]]|].
    rewrite IH. split.
    + intros (H1 & H2 & H3). split; [constructor; assumption|]. split; [exact H2|]. right.
      destruct H3 as [->|H3]; [|exact H3]. cbn [numacc fold_left] in H2. lia.
    + intros (H1 & H2 & [H3|H3]); [discriminate|]. inversion H1; subst. repeat split; auto.
Qed.
Lemma usize_exact v n : value_usize v = Ok n <-> Forall digit v /\ n = num_of v /\ n < 2 ^ 64.
Proof.
  unfold value_usize. rewrite usize_loop_ok, numacc_0. split.
  - intros (H1 & <- & [->|H]); repeat split; auto using Forall_nil.
  - intros (H1 & -> & H). auto.
Qed.
Lemma usize_loop_panic l : forall r, r < 2 ^ 64 -> (value_usize_loop r l = Panic <->
  exists p q, l = p ++ q /\ Forall digit p /\ 2 ^ 64 <= numacc r p <= 2 ^ 64 + 3).
Proof.
  unfold usize_max1. induction l as [|b l IH]; intros r Hr; cbn [value_usize_loop].
  - split; [discriminate|]. intros (p & q & H & _ & K). destruct p; [|discriminate]. cbn [numacc fold_left] in K. lia.
  - unfold usize_max1 in *. destruct (is_digit b) eqn:D.
    2: { split; [discriminate|]. intros ([|c p] & q & H & Hd & K); [cbn [numacc fold_left] in K; lia|].
         injection H as -> ->. apply Forall_inv, is_digit_iff in Hd. congruence. }
    apply is_digit_iff in D.
    destruct (2 ^ 64 <=? r * 10) eqn:E1.
    { split; [discriminate|]. intros ([|c p] & q & H & Hd & K); [cbn [numacc fold_left] in K; lia|]. exfalso.
      injection H as -> ->. cbn [numacc fold_left] in K. fold (numacc (10 * r + (c - 48)) p) in K.
      pose proof (numacc_ge p (10 * r + (c - 48))). change (2 ^ 64) with 18446744073709551616 in *. unfold digit in D. lia. }
    destruct (2 ^ 64 <=? r * 10 + (b - 48)) eqn:E2.
    { split; [|reflexivity]. intros _. exists [b], l. split; [reflexivity|]. split; [constructor; [exact D|constructor]|].
      cbn [numacc fold_left]. change (2 ^ 64) with 18446744073709551616 in *. unfold digit in D. lia. }
    rewrite IH by lia. split; intros (p & q & H & Hd & K).
    + exists (b :: p), q. subst l. split; [reflexivity|]. split; [constructor; assumption|]. cbn [numacc fold_left].
      fold (numacc (10 * r + (b - 48)) p). replace (10 * r + (b - 48)) with (r * 10 + (b - 48)) by lia. exact K.
    + destruct p as [|c p]; [cbn [numacc fold_left] in K; lia|]. injection H as -> ->. exists p, q. split; [reflexivity|].
      split; [inversion Hd; assumption|]. cbn [numacc fold_left] in K. fold (numacc (10 * r + (c - 48)) p) in K.
      replace (10 * r + (c - 48)) with (r * 10 + (c - 48)) in K by lia. exact K.
Qed.
Lemma usize_panic v : value_usize v = Panic <->
  exists p q, v = p ++ q /\ Forall digit p /\ 2 ^ 64 <= num_of p <= 2 ^ 64 + 3.
Proof. apply usize_loop_panic. vm_compute. reflexivity. Qed.
Lemma usize_loop_returns l : forall r, value_usize_loop r l <> Diverge.
Proof.
  induction l as [|b l IH]; intros r; [discriminate|]. cbn [value_usize_loop].
  destruct (is_digit b); [|discriminate]. destruct (usize_max1 <=? r * 10); [discriminate|].
  destruct (usize_max1 <=? r * 10 + (b - 48)); [discriminate|]. apply IH.
Qed.

(** The isize loop once a non-zero digit has been read. *)
Definition sgn (neg : bool) (n : N) : Z := if neg then (- Z.of_N n)%Z else Z.of_N n.
Lemma isize_loop_pos l : forall r neg z, r <> 0 ->
  value_isize_loop r neg l = Ok z <-> Forall digit l /\ z = sgn neg (numacc r l) /\ (l = [] \/ numacc r l < 2 ^ 63).
Proof.
  induction l as [|b l IH]; intros r neg z Hr; cbn [value_isize_loop].
  - cbn [numacc fold_left]. split; [intros H; injection H as <-|intros (_ & -> & _)]; auto using Forall_nil.
  - unfold isize_max1 in *. destruct (is_digit b) eqn:D.
    2: { destruct ((b =? 45) && (r =? 0)) eqn:Q; [lia|]. split; [discriminate|]. intros (H & _). apply Forall_inv, is_digit_iff in H. congruence. }
    apply is_digit_iff in D. cbn [numacc fold_left]. fold (numacc (10 * r + (b - 48)) l).
    replace (10 * r + (b - 48)) with (r * 10 + (b - 48)) by lia. pose proof (numacc_ge l (r * 10 + (b - 48))) as G.
    destruct (2 ^ 63 <=? r * 10) eqn:E1; [split; [discriminate|intros (_ & _ & [K|K]); [discriminate|lia]]|].
    destruct (2 ^ 63 <=? r * 10 + (b - 48)) eqn:E2; [split; [discriminate|intros (_ & _ & [K|K]); [discriminate|lia]]|].
    rewrite IH by lia. split.
    + intros (H1 & H2 & H3). split; [constructor; assumption|]. split; [exact H2|]. right.
      destruct H3 as [->|H3]; [|exact H3]. cbn [numacc fold_left] in *. lia.
    + intros (H1 & H2 & [H3|H3]); [discriminate|]. inversion H1; subst. repeat split; auto.
Qed.
Lemma isize_loop_zero l : forall neg z, value_isize_loop 0 neg l = Ok z <->
  exists p ds, l = p ++ ds /\ Forall (fun b => b = 45 \/ b = 48) p /\ Forall digit ds /\ num_of ds < 2 ^ 63 /\
    z = sgn (neg || existsb (N.eqb 45) p) (num_of ds).
Proof.
  induction l as [|b l IH]; intros neg z; cbn [value_isize_loop].
  - split.
    + intros H. injection H as <-. exists [], []. rewrite orb_false_r. repeat split; constructor.
    + intros (p & ds & H & _ & _ & _ & ->). symmetry in H. apply app_eq_nil in H as [-> ->]. rewrite orb_false_r. reflexivity.
  - unfold isize_max1. destruct (is_digit b) eqn:D.
    + apply is_digit_iff in D. change (0 * 10) with 0. change (2 ^ 63 <=? 0) with false. cbv iota.
      destruct (2 ^ 63 <=? 0 + (b - 48)) eqn:E; [change (2 ^ 63) with 9223372036854775808 in E; unfold digit in D; lia|]. clear E.
      destruct (b =? 48) eqn:B.
      * apply N.eqb_eq in B. subst b. change (0 + (48 - 48)) with 0. rewrite IH. split; intros (p & ds & H).
        -- destruct H as (-> & H1 & H2 & H3 & ->). exists (48 :: p), ds. repeat split; auto.
        -- destruct H as (H & H1 & H2 & H3 & ->). destruct p as [|c p].
           ++ cbn [app] in H. subst ds. exists [], l. inversion H2; subst. repeat split; auto.
           ++ injection H as <- ->. exists p, ds. inversion H1; subst. repeat split; auto.
      * rewrite isize_loop_pos by (unfold digit in D; lia). replace (0 + (b - 48)) with (10 * 0 + (b - 48)) by lia. split.
        -- intros (H1 & H2 & H3). exists [], (b :: l). repeat split; auto.
           ++ destruct H3 as [->|H3]; [|exact H3]. unfold digit in D. unfold num_of. cbn [fold_left]. change (2 ^ 63) with 9223372036854775808. lia.
           ++ rewrite H2, orb_false_r. reflexivity.
        -- intros (p & ds & H & H1 & H2 & H3 & ->). destruct p as [|c p].
           ++ cbn [app] in H. subst ds. inversion H2; subst. rewrite orb_false_r. repeat split; auto.
           ++ injection H as <- ->. apply Forall_inv in H1. unfold digit in D. lia.
    + destruct (b =? 45) eqn:B; cbn [andb].
      * apply N.eqb_eq in B. subst b. change (0 =? 0) with true. cbv iota. rewrite IH. split; intros (p & ds & H).
        -- destruct H as (-> & H1 & H2 & H3 & ->). exists (45 :: p), ds. repeat split; auto.
           cbn [existsb]. change (45 =? 45) with true. rewrite orb_true_r. reflexivity.
        -- destruct H as (H & H1 & H2 & H3 & ->). destruct p as [|c p].
           ++ cbn [app] in H. subst ds. apply Forall_inv in H2. unfold digit in H2. lia.
           ++ injection H as <- ->. exists p, ds. inversion H1; subst. repeat split; auto.
              cbn [existsb]. change (45 =? 45) with true. rewrite orb_true_r. reflexivity.
      * split; [discriminate|]. intros (p & ds & H & H1 & H2 & _). destruct p as [|c p].
        -- cbn [app] in H. subst ds. apply Forall_inv, is_digit_iff in H2. congruence.
        -- injection H as <- ->. apply Forall_inv in H1. destruct H1 as [->| ->]; [lia|discriminate].
Qed.
Lemma isize_exact v z : value_isize v = Ok z <-> lax_signed v z /\ (- 2 ^ 63 < z < 2 ^ 63)%Z.
Proof.
  unfold value_isize. rewrite isize_loop_zero. split.
  - intros (p & ds & -> & H1 & H2 & H3 & ->). cbn [orb]. split; [constructor; assumption|]. unfold sgn.
    change (2 ^ 63) with 9223372036854775808 in H3. change (2 ^ 63)%Z with 9223372036854775808%Z.
    destruct (existsb (N.eqb 45) p); lia.
  - intros [H K]. destruct H as [p ds H1 H2]. exists p, ds. repeat split; auto.
    change (2 ^ 63) with 9223372036854775808. change (2 ^ 63)%Z with 9223372036854775808%Z in K.
    destruct (existsb (N.eqb 45) p); lia.
Qed.
Lemma isize_loop_panic_pos l : forall r neg, r <> 0 -> r < 2 ^ 63 -> (value_isize_loop r neg l = Panic <->
  exists p q, l = p ++ q /\ Forall digit p /\ 2 ^ 63 <= numacc r p <= 2 ^ 63 + 1).
Proof.
  induction l as [|b l IH]; intros r neg Hz Hr; cbn [value_isize_loop].
  - split; [discriminate|]. intros (p & q & H & _ & K). destruct p; [|discriminate]. cbn [numacc fold_left] in K. lia.
  - unfold isize_max1 in *. destruct (is_digit b) eqn:D.
    2: { destruct ((b =? 45) && (r =? 0)) eqn:Q; [lia|]. split; [discriminate|]. intros ([|c p] & q & H & Hd & K); [cbn [numacc fold_left] in K; lia|].
         injection H as -> ->. apply Forall_inv, is_digit_iff in Hd. congruence. }
    apply is_digit_iff in D.
    destruct (2 ^ 63 <=? r * 10) eqn:E1.
    { split; [discriminate|]. intros ([|c p] & q & H & Hd & K); [cbn [numacc fold_left] in K; lia|]. exfalso.
      injection H as -> ->. cbn [numacc fold_left] in K. fold (numacc (10 * r + (c - 48)) p) in K.
      pose proof (numacc_ge p (10 * r + (c - 48))). change (2 ^ 63) with 9223372036854775808 in *. unfold digit in D. lia. }
    destruct (2 ^ 63 <=? r * 10 + (b - 48)) eqn:E2.
    { split; [|reflexivity]. intros _. exists [b], l. split; [reflexivity|]. split; [constructor; [exact D|constructor]|].
      cbn [numacc fold_left]. change (2 ^ 63) with 9223372036854775808 in *. unfold digit in D. lia. }
    rewrite IH by lia. split; intros (p & q & H & Hd & K).
    + exists (b :: p), q. subst l. split; [reflexivity|]. split; [constructor; assumption|]. cbn [numacc fold_left].
      fold (numacc (10 * r + (b - 48)) p). replace (10 * r + (b - 48)) with (r * 10 + (b - 48)) by lia. exact K.
    + destruct p as [|c p]; [cbn [numacc fold_left] in K; lia|]. injection H as -> ->. exists p, q. split; [reflexivity|].
      split; [inversion Hd; assumption|]. cbn [numacc fold_left] in K. fold (numacc (10 * r + (c - 48)) p) in K.
      replace (10 * r + (c - 48)) with (r * 10 + (c - 48)) in K by lia. exact K.
Qed.
Lemma isize_loop_panic_zero l : forall neg, value_isize_loop 0 neg l = Panic <->
  exists p ds q, l = p ++ ds ++ q /\ Forall (fun b => b = 45 \/ b = 48) p /\ Forall digit ds /\ 2 ^ 63 <= num_of ds <= 2 ^ 63 + 1.
Proof.
  induction l as [|b l IH]; intros neg; cbn [value_isize_loop].
  - split; [discriminate|]. intros (p & ds & q & H & _ & _ & K). symmetry in H. apply app_eq_nil in H as [_ H].
    apply app_eq_nil in H as [-> _]. cbn in K. change (2 ^ 63) with 9223372036854775808 in K. lia.
  - unfold isize_max1. destruct (is_digit b) eqn:D.
    + apply is_digit_iff in D. change (0 * 10) with 0. change (2 ^ 63 <=? 0) with false. cbv iota.
      destruct (2 ^ 63 <=? 0 + (b - 48)) eqn:E; [change (2 ^ 63) with 9223372036854775808 in E; unfold digit in D; lia|]. clear E.
      destruct (b =? 48) eqn:B.
      * apply N.eqb_eq in B. subst b. change (0 + (48 - 48)) with 0. rewrite IH. split; intros (p & ds & q & H).
        -- destruct H as (-> & H1 & H2 & H3). exists (48 :: p), ds, q. repeat split; auto; apply H3.
        -- destruct H as (H & H1 & H2 & H3). destruct p as [|c p].
           ++ destruct ds as [|c ds]; [cbn in H3; change (2 ^ 63) with 9223372036854775808 in H3; lia|].
              injection H as <- ->. exists [], ds, q. inversion H2; subst. repeat split; auto; apply H3.
           ++ injection H as <- ->. exists p, ds, q. inversion H1; subst. repeat split; auto; apply H3.
      * rewrite isize_loop_panic_pos; [|unfold digit in D; lia|unfold digit in D; change (2 ^ 63) with 9223372036854775808; lia].
        replace (0 + (b - 48)) with (10 * 0 + (b - 48)) by lia. split.
        -- intros (p & q & -> & H1 & H2). exists [], (b :: p), q. repeat split; auto; apply H2.
        -- intros (p & ds & q & H & H1 & H2 & H3). destruct p as [|c p].
           ++ destruct ds as [|c ds]; [cbn in H3; change (2 ^ 63) with 9223372036854775808 in H3; lia|].
              injection H as <- ->. exists ds, q. inversion H2; subst. repeat split; auto; apply H3.
           ++ injection H as <- ->. apply Forall_inv in H1. unfold digit in D. lia.
    + destruct (b =? 45) eqn:B; cbn [andb].
      * apply N.eqb_eq in B. subst b. change (0 =? 0) with true. cbv iota. rewrite IH. split; intros (p & ds & q & H).
        -- destruct H as (-> & H1 & H2 & H3). exists (45 :: p), ds, q. repeat split; auto; apply H3.
        -- destruct H as (H & H1 & H2 & H3). destruct p as [|c p].
           ++ destruct ds as [|c ds]; [cbn in H3; change (2 ^ 63) with 9223372036854775808 in H3; lia|].
              injection H as <- ->. apply Forall_inv in H2. unfold digit in H2. lia.
           ++ injection H as <- ->. exists p, ds, q. inversion H1; subst. repeat split; auto; apply H3.
      * split; [discriminate|]. intros (p & ds & q & H & H1 & H2 & H3). destruct p as [|c p].
        -- destruct ds as [|c ds]; [cbn in H3; change (2 ^ 63) with 9223372036854775808 in H3; lia|].
           injection H as <- ->. apply Forall_inv, is_digit_iff in H2. congruence.
        -- injection H as <- ->. apply Forall_inv in H1. destruct H1 as [->| ->]; [lia|discriminate].
Qed.
Lemma isize_panic v : value_isize v = Panic <->
  exists p z q, v = p ++ q /\ lax_signed p z /\ (2 ^ 63 <= Z.abs z <= 2 ^ 63 + 1)%Z.
Proof.
  unfold value_isize. rewrite isize_loop_panic_zero. split.
  - intros (p & ds & q & -> & H1 & H2 & H3). eexists (p ++ ds), _, q. rewrite app_assoc. split; [reflexivity|].
    split; [constructor; assumption|].
    change (2 ^ 63) with 9223372036854775808 in H3. change (2 ^ 63)%Z with 9223372036854775808%Z.
    destruct (existsb (N.eqb 45) p); lia.
  - intros (p & z & q & -> & H & K). destruct H as [p ds H1 H2]. exists p, ds, q. rewrite app_assoc. repeat split; auto.
    all: change (2 ^ 63) with 9223372036854775808; change (2 ^ 63)%Z with 9223372036854775808%Z in K;
      destruct (existsb (N.eqb 45) p); lia.
Qed.
Lemma isize_loop_returns l : forall r neg, value_isize_loop r neg l <> Diverge.
Proof.
  induction l as [|b l IH]; intros r neg; [discriminate|]. cbn [value_isize_loop].
  destruct (is_digit b); [|destruct ((b =? 45) && (r =? 0)); [apply IH|discriminate]].
  destruct (isize_max1 <=? r * 10); [discriminate|].
  destruct (isize_max1 <=? r * 10 + (b - 48)); [discriminate|]. apply IH.
Qed.
Lemma dec_print_decimal n : decimal (dec_print n) n.
Proof.
  split; [apply dec_print_nonnil|]. split.
  - apply Forall_forall. intros b Hb. pose proof (proj1 (forallb_forall _ _) (dec_print_digits n) b Hb) as K. apply is_digit_iff, K.
  - rewrite num_of_dec. symmetry. apply dec_print_val.
Qed.
Lemma usize_roundtrip n : n < 2 ^ 64 -> value_usize (value_of_usize n) = Ok n.
Proof. intros H. apply usize_exact. destruct (dec_print_decimal n) as (_ & H1 & H2). auto. Qed.
Lemma isize_roundtrip z : (- 2 ^ 63 < z < 2 ^ 63)%Z -> value_isize (value_of_isize z) = Ok z.
Proof.
  intros H. apply isize_exact. split; [|exact H]. unfold value_of_isize, dec_print_z.
  assert (G : forall n, lax_signed (dec_print n) (Z.of_N n)).
  { intros n. destruct (dec_print_decimal n) as (_ & H1 & H2). rewrite H2 at 2. apply (ls_intro []); [constructor|exact H1]. }
  destruct z as [|p|p]; [apply G|apply G|].
  destruct (dec_print_decimal (Npos p)) as (_ & H1 & H2).
  replace (Z.neg p) with (- Z.of_N (num_of (dec_print (N.pos p))))%Z by (rewrite <- H2; reflexivity).
  apply (ls_intro [45]); [repeat constructor|exact H1].
Qed.
Lemma usize_stand_roundtrip n : n < 2 ^ 64 -> value_usize_stand (value_of_usize n) = Ok n.
Proof. intros H. unfold value_usize_stand, value_of_usize. rewrite parse_uint_print by exact H. reflexivity. Qed.
Lemma isize_stand_roundtrip z : (- 2 ^ 63 <= z < 2 ^ 63)%Z -> value_isize_stand (value_of_isize z) = Ok z.
Proof.
  intros H. unfold value_isize_stand, value_of_isize, dec_print_z.
  change (2 ^ 63)%Z with 9223372036854775808%Z in H.
  assert (G : forall n, n < isize_max1 -> parse_sint isize_max1 (dec_print n) = Some (Z.of_N n)).
  { intros n Hn. unfold parse_sint.
    assert (F : forall l, forallb dec_digit l = true -> match l with 45 :: r => match parse_digits (isize_max1 + 1) r with Some n => Some (- Z.of_N n)%Z | None => None end
       | _ => match parse_uint isize_max1 l with Some n => Some (Z.of_N n) | None => None end end = match parse_uint isize_max1 l with Some n => Some (Z.of_N n) | None => None end).
    { intros [|b l] Hl; [reflexivity|]. cbn [forallb] in Hl. apply andb_true_iff in Hl as [Hb _].
      assert (b <> 45) by (unfold dec_digit in Hb; lia).
      repeat match goal with |- match ?x with _ => _ end = _ => destruct x; try reflexivity; try congruence end. }
    rewrite F by apply dec_print_digits. rewrite parse_uint_print by exact Hn. reflexivity. }
  destruct z as [|p|p].
  - rewrite G by (vm_compute; reflexivity). reflexivity.
  - rewrite G by (unfold isize_max1; change (2 ^ 63) with 9223372036854775808; lia). reflexivity.
  - cbn [parse_sint]. rewrite parse_digits_print; [reflexivity|]. unfold isize_max1. change (2 ^ 63) with 9223372036854775808. lia.
Qed.

(** ** Content-Length *)
Lemma body_len_none h : hm_get h (str "content-length") = None -> hm_body_len h = Ok 0%Z.
Proof. intros H. unfold hm_body_len. rewrite H. reflexivity. Qed.
Lemma body_len_decimal h v n : hm_get h (str "content-length") = Some v -> decimal v n -> n < 2 ^ 63 -> hm_body_len h = Ok (Z.of_N n).
Proof.
  intros H (_ & Hd & ->) Hn. unfold hm_body_len. rewrite H.
  assert (E : value_isize v = Ok (Z.of_N (num_of v))).
  { apply isize_exact. split; [apply (ls_intro []); [constructor|exact Hd]|].
    change (2 ^ 63) with 9223372036854775808 in Hn. change (2 ^ 63)%Z with 9223372036854775808%Z. lia. }
  rewrite E. reflexivity.
Qed.
Lemma body_len_sound h z : hm_body_len h = Ok z -> z <> 0%Z ->
  exists v, hm_get h (str "content-length") = Some v /\ lax_signed v z /\ (- 2 ^ 63 < z < 2 ^ 63)%Z.
Proof.
  unfold hm_body_len. destruct (hm_get h (str "content-length")) as [v|]; [|intros H; injection H as <-; contradiction].
  destruct (value_isize v) as [z'|e| |] eqn:E; intros H Hz; try discriminate; injection H as <-; [|contradiction].
  exists v. split; [reflexivity|]. apply isize_exact, E.
Qed.
Lemma lax_plain v z : lax_signed v z -> ~ In 45 v -> Forall digit v /\ z = Z.of_N (num_of v).
Proof.
  intros H N. destruct H as [p ds H1 H2].
  assert (P : Forall digit p /\ existsb (N.eqb 45) p = false /\ forall r, numacc r (p ++ ds) = numacc (r * 10 ^ N.of_nat (length p)) ds).
  { assert (N' : ~ In 45 p) by (intros K; apply N, in_app_iff; auto). clear N. induction H1 as [|b p Hb H1 IH].
    - repeat split; [constructor|]. intros r. f_equal. cbn. lia.
    - destruct IH as (I1 & I2 & I3); [intros K; apply N'; right; exact K|].
      assert (b = 48) as -> by (destruct Hb as [->|Hb]; [exfalso; apply N'; left; reflexivity|exact Hb]).
      split; [constructor; [unfold digit; lia|exact I1]|]. split; [exact I2|]. intros r. cbn [app numacc fold_left].
      fold (numacc (10 * r + (48 - 48)) (p ++ ds)). rewrite I3. f_equal. cbn [length]. rewrite Nat2N.inj_succ, N.pow_succ_r'. lia. }
  destruct P as (P1 & P2 & P3). split; [apply Forall_app; auto|]. rewrite P2. f_equal.
  rewrite <- (numacc_0 (p ++ ds)), P3, N.mul_0_l. reflexivity.
Qed.
Lemma body_len_exact h v : hm_get h (str "content-length") = Some v -> ~ In 45 v ->
  forall z, z <> 0%Z -> (hm_body_len h = Ok z <-> exists n, z = Z.of_N n /\ decimal v n /\ n < 2 ^ 63).
Proof.
  intros H M z Hz. split.
  - intros E. destruct (body_len_sound h z E Hz) as (v' & H' & L & B). rewrite H in H'. injection H' as <-.
    apply lax_plain in L as [D ->]; [|exact M]. exists (num_of v). split; [reflexivity|]. split; [split; [|auto]|].
    + intros ->. apply Hz. reflexivity.
    + change (2 ^ 63) with 9223372036854775808. change (2 ^ 63)%Z with 9223372036854775808%Z in B. lia.
  - intros (n & -> & D & L). apply (body_len_decimal h v n); assumption.
Qed.
Lemma body_len_panic h : hm_body_len h = Panic <->
  exists v, hm_get h (str "content-length") = Some v /\
    exists p z q, v = p ++ q /\ lax_signed p z /\ (2 ^ 63 <= Z.abs z <= 2 ^ 63 + 1)%Z.
Proof.
  unfold hm_body_len. destruct (hm_get h (str "content-length")) as [v|].
  - split.
    + intros H. exists v. split; [reflexivity|]. apply isize_panic. destruct (value_isize v); try discriminate. reflexivity.
    + intros (v' & E & H). injection E as <-. apply isize_panic in H. rewrite H. reflexivity.
  - split; [discriminate|]. intros (v & E & _). discriminate.
Qed.
Lemma parse_digits_decimal bound v n : parse_digits bound v = Some n <-> decimal v n /\ n < bound.
Proof.
  unfold parse_digits, decimal. rewrite num_of_dec. rewrite <- digit_dec. destruct v as [|b v].
  - split; [discriminate|]. intros ((H & _) & _). contradiction.
  - set (l := b :: v). destruct (forallb dec_digit l).
    + destruct (dec_val l <? bound) eqn:E.
      * split; [intros K; injection K as <-; repeat split; [discriminate|lia]|]. intros ((_ & _ & ->) & _). reflexivity.
      * split; [discriminate|]. intros ((_ & _ & ->) & H). lia.
    + split; [discriminate|]. intros ((_ & H & _) & _). discriminate.
Qed.
Lemma parse_uint_first bound b l : b <> 43 -> parse_uint bound (b :: l) = parse_digits bound (b :: l).
Proof.
  intros H. unfold parse_uint.
  repeat match goal with |- match ?x with _ => _ end = _ => destruct x; try reflexivity; try congruence end.
Qed.
Lemma parse_sint_first bound b l : b <> 45 -> parse_sint bound (b :: l) = match parse_uint bound (b :: l) with Some n => Some (Z.of_N n) | None => None end.
Proof.
  intros H. unfold parse_sint.
  repeat match goal with |- match ?x with _ => _ end = _ => destruct x; try reflexivity; try congruence end.
Qed.
Lemma decimal_first b l n : decimal (b :: l) n -> b <> 43 /\ b <> 45.
Proof. intros (_ & H & _). apply Forall_inv in H. unfold digit in H. lia. Qed.
Lemma isize_stand_exact v z : value_isize_stand v = Ok z <-> std_signed v z /\ (- 2 ^ 63 <= z < 2 ^ 63)%Z.
Proof.
  unfold value_isize_stand. change (2 ^ 63)%Z with 9223372036854775808%Z.
  assert (G : parse_sint isize_max1 v = Some z <-> std_signed v z /\ (-9223372036854775808 <= z < 9223372036854775808)%Z).
  { split.
    - destruct v as [|b v]; [discriminate|]. destruct (N.eq_dec b 45) as [->|N45].
      + cbn [parse_sint]. destruct (parse_digits (isize_max1 + 1) v) as [n|] eqn:E; [|discriminate].
        intros H. injection H as <-. apply parse_digits_decimal in E as [D L]. split; [constructor; exact D|].
        change (isize_max1 + 1) with 9223372036854775809 in L. lia.
      + rewrite parse_sint_first by exact N45. destruct (N.eq_dec b 43) as [->|N43].
        * cbn [parse_uint]. destruct (parse_digits isize_max1 v) as [n|] eqn:E; [|discriminate].
          intros H. injection H as <-. apply parse_digits_decimal in E as [D L]. split; [constructor; exact D|].
          change isize_max1 with 9223372036854775808 in L. lia.
        * rewrite parse_uint_first by exact N43. destruct (parse_digits isize_max1 (b :: v)) as [n|] eqn:E; [|discriminate].
          intros H. injection H as <-. apply parse_digits_decimal in E as [D L]. split; [constructor; exact D|].
          change isize_max1 with 9223372036854775808 in L. lia.
    - intros [H L]. destruct H as [v n D|v n D|v n D].
      + destruct v as [|b v]; [destruct D; contradiction|]. destruct (decimal_first _ _ _ D) as [N1 N2].
        rewrite parse_sint_first, parse_uint_first by assumption.
        rewrite (proj2 (parse_digits_decimal isize_max1 (b :: v) n)); [reflexivity|]. split; [exact D|].
        change isize_max1 with 9223372036854775808. lia.
      + rewrite parse_sint_first by discriminate. cbn [parse_uint].
        rewrite (proj2 (parse_digits_decimal isize_max1 v n)); [reflexivity|]. split; [exact D|].
        change isize_max1 with 9223372036854775808. lia.
      + cbn [parse_sint].
        rewrite (proj2 (parse_digits_decimal (isize_max1 + 1) v n)); [reflexivity|]. split; [exact D|].
        change (isize_max1 + 1) with 9223372036854775809. lia. }
  rewrite <- G. destruct (parse_sint isize_max1 v); split; intros H; try discriminate; injection H as ->; reflexivity.
Qed.
Lemma usize_stand_exact v n : value_usize_stand v = Ok n <-> (decimal v n \/ exists w, v = 43 :: w /\ decimal w n) /\ n < 2 ^ 64.
Proof.
  unfold value_usize_stand.
  assert (G : parse_uint usize_max1 v = Some n <-> (decimal v n \/ exists w, v = 43 :: w /\ decimal w n) /\ n < 2 ^ 64).
  { split.
    - destruct v as [|b v]; [discriminate|]. destruct (N.eq_dec b 43) as [->|N43].
      + cbn [parse_uint]. intros E. apply parse_digits_decimal in E as [D L]. split; [right; eauto|exact L].
      + rewrite parse_uint_first by exact N43. intros E. apply parse_digits_decimal in E as [D L]. split; [left; exact D|exact L].
    - intros [[D|(w & -> & D)] L].
      + destruct v as [|b v]; [destruct D; contradiction|]. destruct (decimal_first _ _ _ D) as [N1 N2].
        rewrite parse_uint_first by assumption. apply parse_digits_decimal. auto.
      + cbn [parse_uint]. apply parse_digits_decimal. auto. }
  rewrite <- G. destruct (parse_uint usize_max1 v); split; intros H; try discriminate; injection H as ->; reflexivity.
Qed.
(** Lookup on names without clashes. *)
Lemma get_find h n : Forall tchar n -> Forall (fun nv => Forall tchar (fst nv) /\ clash_free (fst nv) n) h ->
  hm_get h n = option_map snd (find (fun nv => beq (fold_name (fst nv)) (fold_name n)) h).
Proof.
  intros Hn H. induction H as [|[n' v] h [H1 H2] _ IH]; [reflexivity|]. cbn [hm_get find fst] in *.
  replace (name_eq n' n) with (beq (fold_name n') (fold_name n)).
  - destruct (beq (fold_name n') (fold_name n)); [reflexivity|exact IH].
  - pose proof (clash_name_iff n' n H1 Hn H2) as [C1 C2]. destruct (name_eq n' n) eqn:E.
    + rewrite (C1 eq_refl). apply beq_refl.
    + apply beq_neq. intros K. specialize (C2 K). discriminate.
Qed.
Definition tcharb (b : N) : bool :=
  ((65 <=? b) && (b <=? 90)) || ((97 <=? b) && (b <=? 122)) || ((48 <=? b) && (b <=? 57)) ||
  existsb (N.eqb b) (str "!#$%&'*+-.^_`|~").
Lemma tcharb_ok b : tcharb b = true <-> tchar b.
Proof.
  unfold tcharb, tchar, alpha, upper, lower, digit. rewrite !orb_true_iff, existsb_exists. split.
  - intros [[[H|H]|H]|(x & H & E)]; [left; left; lia|left; right; lia|right; left; lia|].
    apply N.eqb_eq in E. subst x. right. right. exact H.
  - intros [[H|H]|[H|H]]; [left; left; left; lia|left; left; right; lia|left; right; lia|].
    right. exists b. split; [exact H|apply N.eqb_refl].
Qed.
Lemma tchars_b l : forallb tcharb l = true -> Forall tchar l.
Proof. intros H. apply Forall_forall. intros b Hb. apply tcharb_ok. exact (proj1 (forallb_forall _ _) H b Hb). Qed.
Fixpoint clash_freeb (a b : bytes) : bool :=
  match a, b with
  | x :: a', y :: b' =>
    (if (x =? y + 32) || (y =? x + 32)
     then (((65 <=? x) && (x <=? 90)) || ((97 <=? x) && (x <=? 122))) && (((65 <=? y) && (y <=? 90)) || ((97 <=? y) && (y <=? 122)))
     else true) && clash_freeb a' b'
  | _, _ => true
  end.
Lemma clash_freeb_ok a : forall b, clash_freeb a b = true -> clash_free a b.
Proof.
  induction a as [|x a IH]; intros [|y b] H i u v Hu Hv D; try (destruct i; discriminate).
  cbn [clash_freeb] in H. apply andb_true_iff in H as [H1 H2]. destruct i as [|i].
  - injection Hu as <-. injection Hv as <-. unfold alpha, upper, lower.
    destruct ((x =? y + 32) || (y =? x + 32)) eqn:E; lia.
  - apply (IH b H2 i u v); assumption.
Qed.
Lemma alpha_tchar n : Forall alpha n -> Forall tchar n.
Proof. apply Forall_impl. intros b H. left. exact H. Qed.
Lemma letters_iff a b : Forall alpha a -> Forall alpha b -> (name_eq a b = true <-> fold_name a = fold_name b).
Proof. intros Ha Hb. apply clash_name_iff; [apply alpha_tchar, Ha|apply alpha_tchar, Hb|apply alpha_clash_free; assumption]. Qed.
Lemma lower_iff a b : Forall lower_tchar a -> Forall lower_tchar b -> (name_eq a b = true <-> a = b).
Proof.
  intros Ha Hb. rewrite <- (fold_lower a Ha) at 2. rewrite <- (fold_lower b Hb) at 2.
  apply clash_name_iff; [| |apply lower_clash_free; assumption]; (eapply Forall_impl; [|eassumption]); intros c (H & _); exact H.
Qed.
Lemma content_length_found h :
  Forall (fun nv => Forall tchar (fst nv) /\ clash_free (fst nv) (str "content-length")) h ->
  hm_get h (str "content-length") = option_map snd (find (fun nv => beq (fold_name (fst nv)) (str "content-length")) h).
Proof. intros H. rewrite (get_find h); [reflexivity|apply tchars_b; reflexivity|exact H]. Qed.
