(** Lemmas on the builders, URL merging, header predicates and text forms. *)
From Coq Require Import Ascii String NArith ZArith Lia Bool List ZifyBool ZifyNat ZifyN.
From Verif Require Import Base P_Base S_Utf8 M_Std P_Std M_Helper M_Header M_Url M_Http1 M_Frame M_Build S_Http1 S_Http1Api S_Map S_Url S_Build
  P_Helper P_Header P_Http1 P_Msg P_Map P_Url P_UrlForm.
Import ListNotations.
Local Open Scope N_scope.
Ltac Zify.zify_post_hook ::= Z.div_mod_to_equations.

(** ** Sequences of calls *)
Section Calls.
  Context {S O : Type}.
  Variable step : S -> O -> res S.
  Variable fails : O -> werr -> Prop.
  (** The operations considered. *)
  Variable dom : O -> Prop.
  Hypothesis step_cases : forall q o, dom o ->
    (exists e, fails o e /\ step q o = Err e) \/ ((forall e, ~ fails o e) /\ exists q', step q o = Ok q').
  Hypothesis fails_fun : forall o e e', fails o e -> fails o e' -> e = e'.
  Definition run (q : S) (ops : list O) : res S := fold_left (fun r o => q <- r ;; step q o) ops (Ok q).
  Lemma run_err ops e : fold_left (fun r o => q <- r ;; step q o) ops (Err e) = Err e.
  Proof. induction ops; [reflexivity|exact IHops]. Qed.
  Lemma run_cons q o ops : run q (o :: ops) = match step q o with Ok q' => run q' ops | r => fold_left (fun r o => q <- r ;; step q o) ops r end.
  Proof. unfold run. cbn [fold_left bind]. destruct (step q o); reflexivity. Qed.
  Lemma run_cases ops : forall q, Forall dom ops ->
    (exists e, first_failure fails ops e /\ run q ops = Err e) \/ (no_failure fails ops /\ exists q', run q ops = Ok q').
  Proof.
    induction ops as [|o ops IH]; intros q D.
    - right. split; [intros o e []|]. exists q. reflexivity.
    - inversion D as [|? ? D1 D2]; subst. rewrite run_cons. destruct (step_cases q o D1) as [(e & F & E)|(F & q' & E)]; rewrite E.
      + left. exists e. split; [|apply run_err]. exists [], o, ops. split; [reflexivity|]. split; [exact F|]. intros o' e' [].
      + destruct (IH q' D2) as [(e & (b & o1 & a & -> & F1 & F2) & E1)|(F1 & E1)].
        * left. exists e. split; [|exact E1]. exists (o :: b), o1, a. split; [reflexivity|]. split; [exact F1|].
          intros o' e' [<-|K]; [apply F|apply F2, K].
        * right. split; [|exact E1]. intros o' e' [<-|K]; [apply F|apply F1, K].
  Qed.
  Lemma first_failure_not_none ops e : first_failure fails ops e -> no_failure fails ops -> False.
  Proof. intros (b & o & a & -> & F & _) G. apply (G o e); [apply in_elt|exact F]. Qed.
  Lemma first_failure_fun ops e e' : first_failure fails ops e -> first_failure fails ops e' -> e = e'.
  Proof.
    intros (b & o & a & -> & F & G) (b' & o' & a' & E & F' & G'). revert b' E G'. 
    induction b as [|x b IH]; intros [|x' b'] E G'; cbn [app] in E; injection E as <- E.
    - eapply fails_fun; eassumption.
    - exfalso. apply (G' o e); [left; reflexivity|exact F].
    - exfalso. apply (G x e'); [left; reflexivity|exact F'].
    - apply (IH (fun o e K => G o e (or_intror K)) b' E (fun o e K => G' o e (or_intror K))).
  Qed.
  Lemma run_fails q ops e : Forall dom ops -> (run q ops = Err e <-> first_failure fails ops e).
  Proof.
    intros D. destruct (run_cases ops q D) as [(e' & F & E)|(F & q' & E)]; rewrite E.
    - split; [intros K; injection K as <-; exact F|]. intros K. f_equal. eapply first_failure_fun; eassumption.
    - split; [discriminate|]. intros K. destruct (first_failure_not_none _ _ K F).
  Qed.
  Lemma run_ok q ops : Forall dom ops -> ((exists q', run q ops = Ok q') <-> no_failure fails ops).
  Proof.
    intros D. destruct (run_cases ops q D) as [(e & F & E)|(F & q' & E)]; rewrite E.
    - split; [intros [q' K]; discriminate|]. intros K. destruct (first_failure_not_none _ _ F K).
    - split; [intros _; exact F|eauto].
  Qed.
  Lemma run_last {A} (p : S -> A) (f : O -> option A) :
    (forall q o q', step q o = Ok q' -> p q' = match f o with Some a => a | None => p q end) ->
    forall ops q q', run q ops = Ok q' -> last_set f ops (p q) (p q').
  Proof.
    intros H. induction ops as [|o ops IH]; intros q q' E.
    - injection E as <-. right. split; [intros o []|reflexivity].
    - rewrite run_cons in E. destruct (step q o) as [q1|e| |] eqn:E1.
      + apply H in E1. apply IH in E. destruct E as [(b & o1 & a & -> & K1 & K2)|[K1 K2]].
        * left. exists (o :: b), o1, a. auto.
        * rewrite K2, E1. destruct (f o) as [x|] eqn:F.
          -- left. exists [], o, ops. split; [reflexivity|]. split; [exact F|exact K1].
          -- right. split; [|reflexivity]. intros o' [<-|K]; auto.
      + rewrite run_err in E. discriminate.
      + exfalso. clear -E. induction ops; [discriminate|exact (IHops E)].
      + exfalso. clear -E. induction ops; [discriminate|exact (IHops E)].
  Qed.
  Lemma run_fields (p : S -> headers) (f : O -> list (bytes * bytes)) :
    (forall q o q', step q o = Ok q' -> p q' = add_fields (p q) (f o)) ->
    forall ops q q', run q ops = Ok q' -> p q' = add_fields (p q) (flat_map f ops).
  Proof.
    intros H. induction ops as [|o ops IH]; intros q q' E.
    - injection E as <-. reflexivity.
    - rewrite run_cons in E. destruct (step q o) as [q1|e| |] eqn:E1.
      + apply H in E1. apply IH in E. rewrite E, E1. cbn [flat_map]. unfold add_fields. rewrite fold_left_app. reflexivity.
      + rewrite run_err in E. discriminate.
      + exfalso. clear -E. induction ops; [discriminate|exact (IHops E)].
      + exfalso. clear -E. induction ops; [discriminate|exact (IHops E)].
  Qed.
End Calls.
Lemma last_set_fun {O A} (f : O -> option A) ops d a a' : last_set f ops d a -> last_set f ops d a' -> a = a'.
Proof.
  intros [(b & o & r & -> & F & G)|[G ->]] [(b' & o' & r' & E & F' & G')|[G' ->]].
  - apply (f_equal (@rev O)) in E. rewrite !rev_app_distr in E. cbn [rev] in E. rewrite <- !app_assoc in E. cbn [app] in E.
    assert (K : forall x, In x (rev r) -> f x = None) by (intros x Hx; apply G; apply in_rev; exact Hx).
    assert (K' : forall x, In x (rev r') -> f x = None) by (intros x Hx; apply G'; apply in_rev; exact Hx).
    revert E K K'. generalize (rev r) (rev r'). intros l. induction l as [|x l IH]; intros [|x' l'] E K K'; cbn [app] in E; injection E as E1 E2.
    + congruence.
    + pose proof (K' x' (or_introl eq_refl)). congruence.
    + pose proof (K x (or_introl eq_refl)). congruence.
    + apply (IH l' E2); intros y Hy; [apply K|apply K']; right; exact Hy.
  - rewrite (G' o) in F by apply in_elt. discriminate.
  - subst ops. rewrite (G o') in F' by apply in_elt. discriminate.
  - reflexivity.
Qed.

(** ** Inserting fields, against the abstract map *)
Lemma inserts_run l : forall h, fold_left (fun r o => h <- r ;; hop_run h o) (inserts l) (Ok h) = Ok (add_fields h l).
Proof. induction l as [|[n v] l IH]; intros h; [reflexivity|]. cbn [inserts map fold_left bind hop_run fst snd]. apply IH. Qed.
Lemma a_put_val m n v k : a_val (a_put m n v) k = if beq k (fold_name n) then Some v else a_val m k.
Proof. reflexivity. Qed.
Lemma a_run_inserts_val l k : forall m, a_val (fold_left a_step (inserts l) m) k =
  match find (fun nv => beq (fold_name (fst nv)) k) (rev l) with Some nv => Some (snd nv) | None => a_val m k end.
Proof.
  induction l as [|[n v] l IH] using rev_ind; intros m; [reflexivity|].
  unfold inserts. rewrite map_app, fold_left_app. cbn [map fold_left fst snd]. cbn [a_step]. rewrite a_put_val.
  rewrite rev_app_distr. cbn [rev app find fst]. rewrite (beq_sym k (fold_name n)).
  destruct (beq (fold_name n) k); [reflexivity|]. apply IH.
Qed.
Lemma add_fields_map names l : clash_free_names names -> Forall (fun nv => In (fst nv) names) l ->
  map (fun nv => (fst nv, Some (snd nv))) (add_fields [] l) = a_items (a_run (inserts l)) /\
  forall n, In n names -> hm_get (add_fields [] l) n = last_field n l.
Proof.
  intros C H. destruct (map_refines names C (inserts l)) as (h & E & H1 & H2).
  { unfold inserts. apply Forall_map. eapply Forall_impl; [|exact H]. cbn. intros nv K. constructor; [exact K|constructor]. }
  unfold hops_run in E. rewrite inserts_run in E. injection E as <-. split; [exact H1|].
  intros n Hn. destruct (H2 n Hn) as [-> _]. unfold a_run. rewrite a_run_inserts_val. unfold last_field.
  destruct (find _ (rev l)); reflexivity.
Qed.
Lemma hm_contains_exists h n : hm_contains h n = existsb (fun nv => name_eq (fst nv) n) h.
Proof.
  unfold hm_contains. induction h as [|[n' v'] h IH]; [reflexivity|]. cbn [hm_get existsb fst].
  destruct (name_eq n' n); [reflexivity|exact IH].
Qed.

Lemma add_fields_app h a b : add_fields h (a ++ b) = add_fields (add_fields h a) b.
Proof. unfold add_fields. apply fold_left_app. Qed.
(** Under clash-free names the default is decided by the folded names. *)
Lemma existsb_fold names l n : clash_free_names names -> Forall (fun nv => In (fst nv) names) l -> In n names ->
  hm_contains (add_fields [] l) n = existsb (fun nv => beq (fold_name (fst nv)) (fold_name n)) l.
Proof.
  intros C H Hn. destruct (add_fields_map names l C H) as [_ G]. unfold hm_contains. rewrite (G n Hn). unfold last_field.
  destruct (find _ (rev l)) as [nv|] eqn:F; cbn [option_map].
  - apply find_some in F as [F1 F2]. symmetry. apply existsb_exists. exists nv. split; [apply in_rev, F1|exact F2].
  - symmetry. apply not_true_iff_false. intros K. apply existsb_exists in K as (nv & K1 & K2).
    apply in_rev in K1. apply (find_none _ _ F nv) in K1. cbn beta in K1. congruence.
Qed.
Lemma or_default_with names l n v : clash_free_names names -> Forall (fun nv => In (fst nv) names) l -> In n names ->
  l ++ or_default n v (add_fields [] l) = with_default n v l.
Proof.
  intros C H Hn. unfold or_default, with_default. rewrite <- hm_contains_exists, (existsb_fold names) by assumption.
  destruct (existsb _ l); [apply app_nil_r|reflexivity].
Qed.
Lemma with_default_names n v l (P : bytes -> Prop) : P n -> Forall (fun nv => P (fst nv)) l ->
  Forall (fun nv => P (fst nv)) (with_default n v l).
Proof. intros Hn H. unfold with_default. destruct (existsb _ l); [exact H|]. apply Forall_app. split; [exact H|]. constructor; [exact Hn|constructor]. Qed.

(** ** The request builder *)
Lemma find_method v : option_map fst (find (fun ms => beq v (str (snd ms))) method_names) =
  match method_of_str v with Ok m => Some m | _ => None end.
Proof.
  unfold method_of_str, method_names. cbn [find snd].
  repeat match goal with
  | |- context[if beq v ?x then _ else _] => let E := fresh in destruct (beq v x) eqn:E; [apply beq_eq in E; subst v; vm_compute; reflexivity|]
  | H : beq v ?x = false |- context[beq v ?x] => rewrite H
  end. reflexivity.
Qed.
Lemma method_of_str_cases v :
  (exists m, method_of_str v = Ok m) \/ (method_of_str v = Err (EHttp MethodErr) /\ forall m s, In (m, s) method_names -> v <> str s).
Proof.
  destruct (method_of_str v) as [m|e| |] eqn:E; [eauto| | |].
  all: right; split; [revert E; unfold method_of_str; repeat destruct (beq v _); congruence|].
  all: intros m s H ->; assert (K : method_of_str (str s) = Ok m) by (apply method_try_from; eauto); congruence.
Qed.
Lemma url_parse_cases v : (exists u, url_parse v = Ok u) \/ exists e, url_parse v = Err e.
Proof. destruct (url_parse_returns v) as [H1 H2]. destruct (url_parse v); eauto; contradiction. Qed.
Lemma req_step_cases q o :
  (exists e, req_op_fails o e /\ req_op_apply q o = Err e) \/ ((forall e, ~ req_op_fails o e) /\ exists q', req_op_apply q o = Ok q').
Proof.
  destruct o; cbn [req_op_apply]; try (right; split; [intros e K; inversion K|eexists; reflexivity]).
  - destruct (method_of_str_cases v) as [[m E]|[E F]]; rewrite E; cbn [bind].
    + right. split; [|eauto]. intros e K. inversion K as [? F|]; subst. apply method_try_from in E as (s & E1 & E2). exact (F _ _ E1 E2).
    + left. eexists. split; [constructor; exact F|reflexivity].
  - destruct (url_parse_cases v) as [[u E]|[e E]]; rewrite E; cbn [bind].
    + right. split; [|eauto]. intros e K. inversion K; subst. congruence.
    + left. eexists. split; [constructor; exact E|reflexivity].
Qed.
Lemma req_fails_fun o e e' : req_op_fails o e -> req_op_fails o e' -> e = e'.
Proof. intros H H'. destruct H; inversion H'; subst; congruence. Qed.
Lemma Forall_true {A} (l : list A) : Forall (fun _ => True) l.
Proof. apply Forall_forall. auto. Qed.
Lemma req_builder_run ops : req_builder ops = run req_op_apply req_builder_new ops.
Proof. reflexivity. Qed.
Lemma req_builder_fails ops e : req_builder ops = Err e <-> first_failure req_op_fails ops e.
Proof. rewrite req_builder_run. apply run_fails with (dom := fun _ => True); auto using req_step_cases, Forall_true. exact req_fails_fun. Qed.
Lemma req_builder_ok ops : (exists q, req_builder ops = Ok q) <-> no_failure req_op_fails ops.
Proof. rewrite req_builder_run. apply run_ok with (dom := fun _ => True); auto using req_step_cases, Forall_true. Qed.
Lemma req_builder_returns ops : (exists q, req_builder ops = Ok q) \/ exists e, req_builder ops = Err e.
Proof.
  rewrite req_builder_run. destruct (run_cases req_op_apply req_op_fails (fun _ => True) (fun q o _ => req_step_cases q o) ops req_builder_new (Forall_true _)) as [(e & _ & E)|(_ & E)]; eauto.
Qed.
Lemma host_field_connect u : host_field u = match url_connect u with Some c => [(str "Host", c)] | None => [] end.
Proof. unfold host_field, url_connect. destruct (u_domain u), (u_port u); reflexivity. Qed.
Lemma rb_set_url_parts q u : q_method (rb_set_url q u) = q_method q /\ q_version (rb_set_url q u) = q_version q /\
  q_url (rb_set_url q u) = u /\ q_partial (rb_set_url q u) = q_partial q /\ q_header (rb_set_url q u) = add_fields (q_header q) (host_field u).
Proof. rewrite host_field_connect. unfold rb_set_url. cbv zeta. destruct (url_connect u); repeat split. Qed.
Lemma req_step_parts q o q' : req_op_apply q o = Ok q' ->
  q_method q' = match given_method o with Some a => a | None => q_method q end /\
  q_version q' = match given_version o with Some a => a | None => q_version q end /\
  q_url q' = match given_url o with Some a => a | None => q_url q end /\
  q_header q' = add_fields (q_header q) (given_fields o) /\ q_partial q' = q_partial q.
Proof.
  destruct o; cbn [req_op_apply given_version given_fields given_url]; intros E.
  - cbn [given_method]. rewrite find_method. destruct (method_of_str v); try discriminate. injection E as <-. repeat split.
  - injection E as <-. repeat split.
  - destruct (url_parse v) as [u| | |]; try discriminate. cbn [bind] in E. injection E as <-.
    destruct (rb_set_url_parts q u) as (H1 & H2 & H3 & H4 & H5). cbn [given_method]. auto.
  - injection E as <-. destruct (rb_set_url_parts q u) as (H1 & H2 & H3 & H4 & H5). cbn [given_method]. auto.
  - injection E as <-. repeat split.
  - injection E as <-. repeat split.
  - injection E as <-. repeat split.
  - injection E as <-. repeat split.
Qed.
Lemma run_keeps {S O A} (step : S -> O -> res S) (p : S -> A) : (forall q o q', step q o = Ok q' -> p q' = p q) ->
  forall ops q q', run step q ops = Ok q' -> p q' = p q.
Proof.
  intros H ops q q' E. assert (L : last_set (fun _ : O => None) ops (p q) (p q')).
  { eapply run_last; [|exact E]. intros a o b K. exact (H a o b K). }
  destruct L as [(b & o & a & _ & K & _)|[_ K]]; [discriminate|exact K].
Qed.
Lemma req_builder_parts ops q : req_builder ops = Ok q ->
  last_set given_method ops MGet (q_method q) /\ last_set given_version ops V11 (q_version q) /\
  last_set given_url ops url_new (q_url q) /\ q_header q = add_fields [] (flat_map given_fields ops) /\ q_partial q = false.
Proof.
  rewrite req_builder_run. intros E. repeat split.
  - change MGet with (q_method req_builder_new). eapply run_last; [|exact E]. intros a o b K. apply req_step_parts in K. tauto.
  - change V11 with (q_version req_builder_new). eapply run_last; [|exact E]. intros a o b K. apply req_step_parts in K. tauto.
  - change url_new with (q_url req_builder_new). eapply run_last; [|exact E]. intros a o b K. apply req_step_parts in K. tauto.
  - change (@nil (bytes * bytes)) with (q_header req_builder_new). eapply run_fields; [|exact E]. intros a o b K. apply req_step_parts in K. tauto.
  - change false with (q_partial req_builder_new). eapply run_keeps; [|exact E]. intros a o b K. apply req_step_parts in K. tauto.
Qed.
Lemma req_finish_header q : q_header (req_finish q) = add_fields (q_header q) (or_default (str "User-Agent") (str "wenmeng") (q_header q)).
Proof. unfold req_finish, or_default. rewrite hm_contains_exists. cbn [q_header req_set_partial req_set_header]. destruct (existsb _ (q_header q)); reflexivity. Qed.
Lemma req_build_parts ops q : req_build ops = Ok q ->
  last_set given_method ops MGet (q_method q) /\ last_set given_version ops V11 (q_version q) /\
  last_set given_url ops url_new (q_url q) /\
  (let fs := flat_map given_fields ops in
   q_header q = add_fields [] (fs ++ or_default (str "User-Agent") (str "wenmeng") (add_fields [] fs))) /\
  q_partial q = true.
Proof.
  unfold req_build. destruct (req_builder ops) as [q0| | |] eqn:E; try discriminate. cbn [bind]. intros K. injection K as <-.
  apply req_builder_parts in E as (H1 & H2 & H3 & H4 & H5). split; [exact H1|]. split; [exact H2|]. split; [exact H3|]. split; [|reflexivity].
  cbv zeta. rewrite req_finish_header, add_fields_app, <- H4. reflexivity.
Qed.
Lemma req_build_fails ops e : req_build ops = Err e <-> first_failure req_op_fails ops e.
Proof.
  rewrite <- req_builder_fails. unfold req_build. destruct (req_builder ops) as [q| | |]; cbn [bind]; split; congruence.
Qed.
Lemma req_build_ok ops : (exists q, req_build ops = Ok q) <-> no_failure req_op_fails ops.
Proof.
  rewrite <- req_builder_ok. unfold req_build. destruct (req_builder ops) as [q| | |]; cbn [bind]; split; intros [x E]; try discriminate; eauto.
Qed.
Lemma req_build_header names ops q : clash_free_names names -> In (str "User-Agent") names ->
  Forall (fun nv => In (fst nv) names) (flat_map given_fields ops) -> req_build ops = Ok q ->
  let fs := with_default (str "User-Agent") (str "wenmeng") (flat_map given_fields ops) in
  map (fun nv => (fst nv, Some (snd nv))) (q_header q) = a_items (a_run (inserts fs)) /\
  forall n, In n names -> hm_get (q_header q) n = last_field n fs.
Proof.
  intros C U F E. cbv zeta. apply req_build_parts in E as (_ & _ & _ & H & _). cbv zeta in H.
  rewrite (or_default_with names) in H by assumption. rewrite H. apply (add_fields_map names); [exact C|].
  apply (with_default_names _ _ _ (fun n => In n names)); assumption.
Qed.
