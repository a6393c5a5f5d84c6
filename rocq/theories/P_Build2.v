(** More lemmas for C68-C80: responses, URLs, round trips. *)
From Coq Require Import Ascii String NArith ZArith Lia Bool List ZifyBool ZifyNat ZifyN.
From Verif Require Import Base P_Base S_Utf8 M_Std P_Std M_Helper M_Header M_Url M_Http1 M_Frame M_Build S_Http1 S_Http1Api S_Map S_Url S_Frame S_Build
  P_Helper P_Header P_Http1 P_Msg P_Map P_Url P_UrlForm P_Settings P_Build.
Import ListNotations.
Local Open Scope N_scope.
Ltac Zify.zify_post_hook ::= Z.div_mod_to_equations.

(** ** Responses *)
Definition resp_dom (o : resp_op) : Prop := match o with PbStatusText v => bytes_ok v | _ => True end.
Lemma three_digits_num c : 100 <= c <= 999 -> num_of (three_digits c) = c.
Proof. intros H. unfold num_of, three_digits. cbn [fold_left]. lia. Qed.
Lemma resp_step_cases p o : resp_dom o ->
  (exists e, resp_op_fails o e /\ resp_op_apply p o = Err e) \/ ((forall e, ~ resp_op_fails o e) /\ exists p', resp_op_apply p o = Ok p').
Proof.
  destruct o; cbn [resp_op_apply resp_dom]; intros D; try (right; split; [intros e K; inversion K|eexists; reflexivity]).
  - unfold status_from_u16. destruct ((n <? 100) || (1000 <=? n)) eqn:E; cbn [bind].
    + left. eexists. split; [constructor; lia|reflexivity].
    + right. split; [|eauto]. intros e K. inversion K; subst. lia.
  - destruct (from_bytes_err v) as [[c E]|E]; rewrite E; cbn [bind].
    + right. split; [|eauto]. intros e K. inversion K as [|? F]; subst. apply from_bytes_spec in E as [E1 E2]; [|exact D]. exact (F c E1 E2).
    + left. eexists. split; [|reflexivity]. constructor. intros c H ->.
      rewrite (proj2 (from_bytes_spec _ c D) (conj H eq_refl)) in E. discriminate.
Qed.
Lemma resp_fails_fun o e e' : resp_op_fails o e -> resp_op_fails o e' -> e = e'.
Proof. intros H H'. destruct H; inversion H'; subst; reflexivity. Qed.
Lemma resp_builder_run ops : resp_builder ops = run resp_op_apply resp_default ops.
Proof. reflexivity. Qed.
Lemma resp_build_fails ops e : Forall resp_dom ops -> (resp_build ops = Err e <-> first_failure resp_op_fails ops e).
Proof.
  intros D. rewrite <- (run_fails resp_op_apply resp_op_fails resp_dom resp_step_cases resp_fails_fun resp_default ops e D), <- resp_builder_run.
  unfold resp_build. destruct (resp_builder ops); cbn [bind]; split; congruence.
Qed.
Lemma resp_build_ok ops : Forall resp_dom ops -> ((exists p, resp_build ops = Ok p) <-> no_failure resp_op_fails ops).
Proof.
  intros D. rewrite <- (run_ok resp_op_apply resp_op_fails resp_dom resp_step_cases resp_default ops D), <- resp_builder_run.
  unfold resp_build. destruct (resp_builder ops); cbn [bind]; split; intros [y E]; try discriminate; eauto.
Qed.
Lemma resp_step_parts p o p' : resp_dom o -> resp_op_apply p o = Ok p' ->
  p_status p' = match given_status o with Some a => a | None => p_status p end /\
  p_version p' = match given_resp_version o with Some a => a | None => p_version p end /\
  p_header p' = add_fields (p_header p) (given_resp_fields o) /\ p_partial p' = p_partial p.
Proof.
  destruct o; cbn [resp_op_apply resp_dom given_resp_version given_resp_fields]; intros D E.
  - cbn [given_status]. unfold status_from_u16 in E. destruct ((n <? 100) || (1000 <=? n)) eqn:C; [discriminate|]. cbn [bind] in E. injection E as <-.
    replace ((100 <=? n) && (n <=? 999)) with true by lia. repeat split.
  - destruct (status_from_bytes v) as [c| | |] eqn:C; try discriminate. cbn [bind] in E. injection E as <-.
    apply from_bytes_spec in C as [C1 ->]; [|exact D]. cbn [given_status three_digits]. fold (three_digits c).
    change [48 + c / 100; 48 + c / 10 mod 10; 48 + c mod 10] with (three_digits c). rewrite three_digits_num by exact C1. repeat split.
  - injection E as <-. repeat split.
  - injection E as <-. repeat split.
  - injection E as <-. repeat split.
  - injection E as <-. repeat split.
Qed.
(** A run step by step inside [dom]. *)
Lemma run_last_dom {S O A} (step : S -> O -> res S) (dom : O -> Prop) (p : S -> A) (f : O -> option A) :
  (forall q o q', dom o -> step q o = Ok q' -> p q' = match f o with Some a => a | None => p q end) ->
  forall ops q q', Forall dom ops -> run step q ops = Ok q' -> last_set f ops (p q) (p q').
Proof.
  intros H ops. induction ops as [|o ops IH] using rev_ind; intros q q' D E.
  - injection E as <-. right. split; [intros o []|reflexivity].
  - apply Forall_app in D as [D1 D2]. inversion D2 as [|? ? D3 _]; subst. unfold run in E. rewrite fold_left_app in E. cbn [fold_left] in E.
    destruct (fold_left _ ops (Ok q)) as [q1| | |] eqn:E1; try discriminate. cbn [bind] in E.
    apply H in E; [|exact D3]. destruct (f o) as [a|] eqn:F.
    + left. exists ops, o, []. split; [reflexivity|]. split; [congruence|intros x []].
    + rewrite E. destruct (IH q q1 D1 E1) as [(b & o1 & a & -> & K1 & K2)|[K1 K2]].
      * left. exists b, o1, (a ++ [o]). split; [rewrite <- app_assoc; reflexivity|]. split; [exact K1|].
        intros x Hx. apply in_app_iff in Hx as [Hx|[<-|[]]]; auto.
      * right. split; [|exact K2]. intros x Hx. apply in_app_iff in Hx as [Hx|[<-|[]]]; auto.
Qed.
Lemma resp_header_step p o p' : resp_op_apply p o = Ok p' -> p_header p' = add_fields (p_header p) (given_resp_fields o).
Proof.
  destruct o; cbn [resp_op_apply given_resp_fields]; intros E; try (injection E as <-; reflexivity).
  - destruct (status_from_u16 n); try discriminate. injection E as <-. reflexivity.
  - destruct (status_from_bytes v); try discriminate. injection E as <-. reflexivity.
Qed.
Lemma resp_finish_header p : p_header (resp_finish p) = add_fields (p_header p) (or_default (str "Server") (str "wenmeng") (p_header p)).
Proof. unfold resp_finish, or_default. rewrite hm_contains_exists. cbn [p_header resp_set_partial resp_set_header]. destruct (existsb _ (p_header p)); reflexivity. Qed.
Lemma resp_build_parts ops p : Forall resp_dom ops -> resp_build ops = Ok p ->
  last_set given_status ops 200 (p_status p) /\ last_set given_resp_version ops V11 (p_version p) /\
  (let fs := flat_map given_resp_fields ops in
   p_header p = add_fields [] (fs ++ or_default (str "Server") (str "wenmeng") (add_fields [] fs))) /\
  p_partial p = false.
Proof.
  intros D. unfold resp_build. destruct (resp_builder ops) as [p0| | |] eqn:E; try discriminate. cbn [bind]. intros K. injection K as <-.
  rewrite resp_builder_run in E. split; [|split; [|split; [|reflexivity]]].
  - change (p_status (resp_finish p0)) with (p_status p0). change 200 with (p_status resp_default).
    eapply run_last_dom; [|exact D|exact E]. intros a o b Ho K. apply resp_step_parts in K; tauto.
  - change (p_version (resp_finish p0)) with (p_version p0). change V11 with (p_version resp_default).
    eapply run_last_dom; [|exact D|exact E]. intros a o b Ho K. apply resp_step_parts in K; tauto.
  - assert (H : p_header p0 = add_fields (p_header resp_default) (flat_map given_resp_fields ops)).
    { eapply run_fields; [|exact E]. exact resp_header_step. }
    cbv zeta. rewrite resp_finish_header, add_fields_app. change (p_header resp_default) with (@nil (bytes * bytes)) in H. rewrite <- H. reflexivity.
Qed.
Lemma resp_build_header names ops p : Forall resp_dom ops -> clash_free_names names -> In (str "Server") names ->
  Forall (fun nv => In (fst nv) names) (flat_map given_resp_fields ops) -> resp_build ops = Ok p ->
  let fs := with_default (str "Server") (str "wenmeng") (flat_map given_resp_fields ops) in
  map (fun nv => (fst nv, Some (snd nv))) (p_header p) = a_items (a_run (inserts fs)) /\
  forall n, In n names -> hm_get (p_header p) n = last_field n fs.
Proof.
  intros D C U F E. cbv zeta. apply resp_build_parts in E as (_ & _ & H & _); [|exact D]. cbv zeta in H.
  rewrite (or_default_with names) in H by assumption. rewrite H. apply (add_fields_map names); [exact C|].
  apply (with_default_names _ _ _ (fun n => In n names)); assumption.
Qed.

(** ** What the builders write can be read back *)
Lemma wenmeng_ok n : name_okb n = true -> fields_ok [(n, str "wenmeng")].
Proof. intros H. apply fields_okb_ok. cbn [forallb fst snd]. rewrite H. reflexivity. Qed.
Lemma or_default_ok n v h : fields_ok [(n, v)] -> fields_ok (or_default n v h).
Proof. intros H. unfold or_default. destruct (existsb _ h); [constructor|exact H]. Qed.
Lemma resp_build_roundtrip ops p p0 rs body : Forall resp_dom ops -> resp_build ops = Ok p ->
  In (p_version p) known_versions -> canonical_reason (p_status p) = Some rs ->
  fields_ok (flat_map given_resp_fields ops) ->
  exists w, resp_httpdata p body = Ok (w ++ body) /\ resp_parse p0 (w ++ body) = (p, Ok (blen w)).
Proof.
  intros D E V R F. apply resp_build_parts in E as (_ & _ & H & P); [|exact D]. cbv zeta in H.
  destruct (response_roundtrip p p0 rs body V R) as (w & E1 & _ & E2).
  - rewrite H. apply fields_ok_add; [constructor|]. apply Forall_app. split; [exact F|]. apply or_default_ok, wenmeng_ok. reflexivity.
  - rewrite H. apply distinct_add. exact I.
  - exists w. split; [exact E1|]. rewrite E2. do 2 f_equal. destruct p. cbn in *. subst. reflexivity.
Qed.
Lemma req_build_header_ok ops q : req_build ops = Ok q -> fields_ok (flat_map given_fields ops) ->
  fields_ok (q_header q) /\ distinct_names (q_header q).
Proof.
  intros E F. apply req_build_parts in E as (_ & _ & _ & H & _). cbv zeta in H. rewrite H. split.
  - apply fields_ok_add; [constructor|]. apply Forall_app. split; [exact F|]. apply or_default_ok, wenmeng_ok. reflexivity.
  - apply distinct_add. exact I.
Qed.
Lemma host_char_colon d : Forall host_char d -> ~ In COLON d.
Proof. intros H K. rewrite Forall_forall in H. apply H in K as [[_ K] _]. apply K. left. reflexivity. Qed.
Lemma dec_no_colon p : ~ In COLON (dec_print p).
Proof. intros K. pose proof (dec_digits p) as H. rewrite Forall_forall in H. apply H in K. unfold digit, COLON in K. lia. Qed.
Lemma host_parts_print d p : Forall host_char d -> p < 65536 -> host_parts (d ++ COLON :: dec_print p) d p.
Proof.
  intros H P. apply hp_port; [apply host_char_colon, H|apply dec_no_colon|]. apply parse_uint_spec, parse_uint_print, P.
Qed.
Lemma host_char_utf8 d p : Forall host_char d -> utf8_valid (d ++ COLON :: dec_print p) = true.
Proof.
  intros H. apply utf8_valid_ascii. apply Forall_app. split; [eapply Forall_impl; [|exact H]; intros b [[V _] _]; unfold vchar in V; lia|].
  constructor; [unfold COLON; lia|]. eapply Forall_impl; [|apply dec_digits]. unfold digit. intros; lia.
Qed.
Lemma request_sent q q0 body pa d p :
  In (q_method q) known_methods -> q_method q <> MConnect -> In (q_version q) known_versions ->
  q_url q = mkUrl ScHttp pa None None (Some d) (Some p) None -> plain_path pa -> Forall host_char d -> p < 65536 ->
  fields_ok (q_header q) -> distinct_names (q_header q) ->
  hm_get (q_header q) (str "host") = Some (d ++ COLON :: dec_print p) -> hm_get (q_header q) (str ":scheme") = None ->
  exists w, req_http1_data q body = Ok (w ++ body) /\ req_parse q0 (w ++ body) = (req_set_partial q false, Ok (blen w)).
Proof.
  intros M C V U PP HC P F D H S.
  assert (HH : hm_get_host (q_header q) = Some (d ++ COLON :: dec_print p)).
  { unfold hm_get_host. rewrite H. f_equal. apply utf8_lossy_valid, host_char_utf8, HC. }
  destruct (request_roundtrip q q0 body) as (w & u & E1 & E2 & E3 & E4 & E5); try assumption.
  - rewrite U. exact PP.
  - rewrite U. reflexivity.
  - right. exists (d ++ COLON :: dec_print p), d, p. split; [exact HH|apply host_parts_print; assumption].
  - exists w. split; [exact E1|]. rewrite E2. do 2 f_equal. unfold req_set_partial. f_equal.
    rewrite U in *. cbn [u_path] in *. eapply wire_url_fun; [exact E5|].
    change (mkUrl ScHttp pa None None (Some d) (Some p) None) with
      (with_scheme (with_host (mkUrl ScNone pa None None None (Some 0) None) d p) ScHttp).
    eapply wu_target; [exact C|apply url_parse_plain; exact PP| |].
    + eapply hf_host; [reflexivity|exact HH|apply host_parts_print; assumption].
    + apply sf_hint; [reflexivity|]. apply sh_none. exact S.
Qed.

(** ** The URL builder *)
Lemma scheme_named_spec v : blen v <= 64 -> scheme_of_str v = Ok (scheme_named v).
Proof.
  intros H. unfold scheme_of_str, scheme_named, scheme_names. replace (64 <? blen v) with false by lia. cbn [find snd].
  repeat match goal with |- context[beq v ?x] => destruct (beq v x) end; reflexivity.
Qed.
Lemma url_step_cases u o :
  (exists e, url_op_fails o e /\ url_op_apply u o = Err e) \/ ((forall e, ~ url_op_fails o e) /\ exists u', url_op_apply u o = Ok u').
Proof.
  destruct u. destruct o; cbn [url_op_apply]; try (right; split; [intros e K; inversion K|eexists; reflexivity]).
  destruct (N.le_gt_cases (blen v) 64) as [L|L].
  - right. split; [intros e K; inversion K; lia|]. rewrite scheme_named_spec by exact L. eexists. reflexivity.
  - left. eexists. split; [constructor; lia|]. unfold scheme_of_str. replace (64 <? blen v) with true by lia. reflexivity.
Qed.
Lemma url_fails_fun o e e' : url_op_fails o e -> url_op_fails o e' -> e = e'.
Proof. intros H H'. destruct H; inversion H'; subst; reflexivity. Qed.
Lemma url_builder_run ops : url_builder ops = run url_op_apply url_new ops.
Proof. reflexivity. Qed.
Lemma url_builder_fails ops e : url_builder ops = Err e <-> first_failure url_op_fails ops e.
Proof. rewrite url_builder_run. apply run_fails with (dom := fun _ => True); auto using url_step_cases, Forall_true. exact url_fails_fun. Qed.
Lemma url_builder_ok ops : (exists u, url_builder ops = Ok u) <-> no_failure url_op_fails ops.
Proof. rewrite url_builder_run. apply run_ok with (dom := fun _ => True); auto using url_step_cases, Forall_true. Qed.
Lemma url_step_parts u o u' : url_op_apply u o = Ok u' ->
  u_scheme u' = match given_scheme o with Some a => a | None => u_scheme u end /\
  u_user u' = match given_user o with Some a => a | None => u_user u end /\
  u_pass u' = match given_pass o with Some a => a | None => u_pass u end /\
  u_domain u' = match given_domain o with Some a => a | None => u_domain u end /\
  u_port u' = match given_port o with Some a => a | None => u_port u end /\
  u_path u' = match given_path o with Some a => a | None => u_path u end /\
  u_query u' = match given_query o with Some a => a | None => u_query u end.
Proof.
  destruct u. destruct o; cbn [url_op_apply]; intros E.
  2-7: injection E as <-; repeat split.
  destruct (N.le_gt_cases (blen v) 64) as [L|L].
  - rewrite scheme_named_spec in E by exact L. cbn [bind] in E. injection E as <-. repeat split.
  - unfold scheme_of_str in E. replace (64 <? blen v) with true in E by lia. discriminate.
Qed.
Lemma url_builder_parts ops u : url_builder ops = Ok u ->
  last_set given_scheme ops ScNone (u_scheme u) /\ last_set given_user ops None (u_user u) /\
  last_set given_pass ops None (u_pass u) /\ last_set given_domain ops None (u_domain u) /\
  last_set given_port ops None (u_port u) /\ last_set given_path ops (str "/") (u_path u) /\
  last_set given_query ops None (u_query u).
Proof.
  rewrite url_builder_run. intros E.
  assert (G : forall A (p : url -> A) f, (forall a o b, url_op_apply a o = Ok b -> p b = match f o with Some x => x | None => p a end) ->
            last_set f ops (p url_new) (p u)).
  { intros A p f H. eapply run_last; [exact H|exact E]. }
  repeat split.
  - apply (G _ u_scheme). intros a o b K. apply url_step_parts in K. tauto.
  - apply (G _ u_user). intros a o b K. apply url_step_parts in K. tauto.
  - apply (G _ u_pass). intros a o b K. apply url_step_parts in K. tauto.
  - apply (G _ u_domain). intros a o b K. apply url_step_parts in K. tauto.
  - apply (G _ u_port). intros a o b K. apply url_step_parts in K. tauto.
  - apply (G _ u_path). intros a o b K. apply url_step_parts in K. tauto.
  - apply (G _ u_query). intros a o b K. apply url_step_parts in K. tauto.
Qed.
(** A URL without a port is written as one with its scheme's port where that is not written. *)
Lemma port_of_default u n : u_port u = None -> port_of u n -> n = default_port (u_scheme u).
Proof.
  intros H K. apply default_port_spec. destruct K as [p K|p K1 K2|K1 K2]; [congruence|left; exact K2|right; split; [exact K2|reflexivity]].
Qed.
