(** Lemmas for C96. *)
From Coq Require Import Ascii String NArith ZArith Lia Bool List ZifyBool ZifyNat ZifyN.
From Verif Require Import Base P_Base M_Std M_Helper M_Header M_Url M_Http1 M_Ext M_Write M_Build M_Object
  S_Http1 S_Http1Api S_Map S_Url S_Write S_Build S_Ext S_Object P_Msg P_Map P_Header P_Write P_Build.
Import ListNotations.
Local Open Scope N_scope.

Lemma req_call_parts {V B} (r : reqo V B) c :
  q_method (ro_head (req_call_run r c)) = on_method c (q_method (ro_head r)) /\
  q_version (ro_head (req_call_run r c)) = on_version c (q_version (ro_head r)) /\
  q_url (ro_head (req_call_run r c)) = on_url c (q_url (ro_head r)) /\
  q_header (ro_head (req_call_run r c)) = on_headers c (q_header (ro_head r)) /\
  q_partial (ro_head (req_call_run r c)) = q_partial (ro_head r) /\
  ro_ext (req_call_run r c) = on_ext c (ro_ext r) /\
  ro_body (req_call_run r c) = on_body c (ro_body r).
Proof.
  destruct r as [q e b]. destruct c; cbn [req_call_run on_method on_version on_url on_headers on_ext on_body ro_head ro_ext ro_body]; try (repeat split; reflexivity).
  rewrite host_field_connect. unfold req_update_url. rewrite hm_contains_exists.
  destruct (url_connect u) as [k|]; destruct (existsb _ (q_header q)); repeat split; reflexivity.
Qed.
Lemma req_calls_parts {V B} (cs : list (req_call V B)) : forall r,
  q_method (ro_head (req_calls r cs)) = changed on_method cs (q_method (ro_head r)) /\
  q_version (ro_head (req_calls r cs)) = changed on_version cs (q_version (ro_head r)) /\
  q_url (ro_head (req_calls r cs)) = changed on_url cs (q_url (ro_head r)) /\
  q_header (ro_head (req_calls r cs)) = changed on_headers cs (q_header (ro_head r)) /\
  q_partial (ro_head (req_calls r cs)) = q_partial (ro_head r) /\
  ro_ext (req_calls r cs) = changed on_ext cs (ro_ext r) /\
  ro_body (req_calls r cs) = changed on_body cs (ro_body r).
Proof.
  induction cs as [|c cs IH]; intros r; [repeat split|]. unfold req_calls in *. cbn [fold_left changed].
  destruct (req_call_parts r c) as (<- & <- & <- & <- & <- & <- & <-). apply IH.
Qed.
Lemma resp_call_parts {V B} (r : respo V B) c :
  p_status (po_head (resp_call_run r c)) = pon_status c (p_status (po_head r)) /\
  p_version (po_head (resp_call_run r c)) = pon_version c (p_version (po_head r)) /\
  p_header (po_head (resp_call_run r c)) = pon_headers c (p_header (po_head r)) /\
  p_partial (po_head (resp_call_run r c)) = p_partial (po_head r) /\
  po_ext (resp_call_run r c) = pon_ext c (po_ext r) /\
  po_body (resp_call_run r c) = pon_body c (po_body r).
Proof. destruct r as [p e b]. destruct c; repeat split; reflexivity. Qed.
Lemma resp_calls_parts {V B} (cs : list (resp_call V B)) : forall r,
  p_status (po_head (resp_calls r cs)) = changed pon_status cs (p_status (po_head r)) /\
  p_version (po_head (resp_calls r cs)) = changed pon_version cs (p_version (po_head r)) /\
  p_header (po_head (resp_calls r cs)) = changed pon_headers cs (p_header (po_head r)) /\
  p_partial (po_head (resp_calls r cs)) = p_partial (po_head r) /\
  po_ext (resp_calls r cs) = changed pon_ext cs (po_ext r) /\
  po_body (resp_calls r cs) = changed pon_body cs (po_body r).
Proof.
  induction cs as [|c cs IH]; intros r; [repeat split|]. unfold resp_calls in *. cbn [fold_left changed].
  destruct (resp_call_parts r c) as (<- & <- & <- & <- & <- & <-). apply IH.
Qed.

(** What is sent. *)
Lemma head_sent q body : q_method q <> MNone -> q_version q <> VNone ->
  req_http1_data q body = Ok (request_text (method_str (q_method q)) (u_path (q_url q)) (version_str (q_version q)) (q_header q) ++ body).
Proof.
  intros M W. unfold req_http1_data, req_encode_header, method_encode, version_encode.
  destruct (q_method q) eqn:Em; try contradiction; destruct (q_version q) eqn:Ev; try contradiction; cbn [bind]; f_equal;
    unfold request_text; rewrite <- !app_assoc; cbn [app]; rewrite hm_encode_text; repeat (rewrite <- !app_assoc; cbn [app]); reflexivity.
Qed.

(** Builders that start from a request. *)
Lemma req_builder_from_parts q0 ops q : req_builder_from q0 ops = Ok q ->
  last_set given_method ops (q_method q0) (q_method q) /\ last_set given_version ops (q_version q0) (q_version q) /\
  last_set given_url ops (q_url q0) (q_url q) /\
  q_header q = fold_left (fun acc nv => hm_insert acc (fst nv) (snd nv)) (flat_map given_fields ops) (q_header q0).
Proof.
  change (req_builder_from q0 ops) with (run req_op_apply q0 ops). intros E. repeat split.
  - eapply run_last; [|exact E]. intros a o b K. apply req_step_parts in K. tauto.
  - eapply run_last; [|exact E]. intros a o b K. apply req_step_parts in K. tauto.
  - eapply run_last; [|exact E]. intros a o b K. apply req_step_parts in K. tauto.
  - change (q_header q = add_fields (q_header q0) (flat_map given_fields ops)).
    eapply run_fields; [|exact E]. intros a o b K. apply req_step_parts in K. tauto.
Qed.
Lemma builder_of_parts r :
  q_method (req_builder_of r) = (match q_method r with MNone => MGet | m => m end) /\
  q_version (req_builder_of r) = (match q_version r with VNone => V11 | v => v end) /\
  q_url (req_builder_of r) = q_url r /\ q_header (req_builder_of r) = [] /\ q_partial (req_builder_of r) = false.
Proof. destruct r as [m v u h p]. destruct m, v; repeat split. Qed.

(** Adding the default field does not change the content length. *)
Lemma insert_absent h n v : hm_contains h n = false -> hm_insert h n v = h ++ [(n, v)].
Proof.
  unfold hm_contains. induction h as [|[n' v'] h IH]; [reflexivity|]. cbn [hm_get hm_insert app].
  destruct (name_eq n' n); [discriminate|]. intros H. f_equal. apply IH, H.
Qed.
Lemma get_appended h n v k : name_eq n k = false -> hm_get (h ++ [(n, v)]) k = hm_get h k.
Proof.
  intros H. induction h as [|[n' v'] h IH]; cbn [hm_get app]; [rewrite H; reflexivity|].
  destruct (name_eq n' k); [reflexivity | exact IH].
Qed.
Lemma req_finish_body_len q : hm_body_len (q_header (req_finish q)) = hm_body_len (q_header q).
Proof.
  unfold req_finish. cbn [q_header req_set_partial req_set_header].
  destruct (hm_contains (q_header q) (str "User-Agent")) eqn:E; [reflexivity|].
  rewrite insert_absent by exact E. unfold hm_body_len. rewrite get_appended; reflexivity.
Qed.
Lemma resp_finish_body_len p : hm_body_len (p_header (resp_finish p)) = hm_body_len (p_header p).
Proof.
  unfold resp_finish. cbn [p_header resp_set_partial resp_set_header].
  destruct (hm_contains (p_header p) (str "Server")) eqn:E; [reflexivity|].
  rewrite insert_absent by exact E. unfold hm_body_len. rewrite get_appended; reflexivity.
Qed.

(** The response builder with extensions. *)
Lemma pb_run_head {V} (cs : list (pb_call V)) : forall (r : res (response * extensions V)),
  (p <- fold_left pb_step cs r ;; Ok (fst p)) = fold_left (fun a o => q <- a ;; o q) (map pb_head_step cs) (p <- r ;; Ok (fst p)).
Proof.
  induction cs as [|c cs IH]; intros r; [reflexivity|]. cbn [fold_left map]. rewrite IH. f_equal.
  destruct r as [[p e]|x| |]; cbn [bind fst pb_step]; try reflexivity.
  destruct c; cbn [pb_head_step fst bind]; try reflexivity. destruct (resp_op_apply p o); reflexivity.
Qed.
Lemma pb_run_ext {V} (cs : list (pb_call V)) : forall p e m p' e', built e m -> fold_left pb_step cs (Ok (p, e)) = Ok (p', e') ->
  exists m', built e' m' /\ forall T, last_set (gives_extension T) cs (m T) (m' T).
Proof.
  induction cs as [|c cs IH]; intros p e m p' e' Hb E.
  - injection E as <- <-. exists m. split; [exact Hb|]. intros T. right. split; [intros o []|reflexivity].
  - cbn [fold_left] in E.
    assert (K : exists p1 e1 m1, pb_step (Ok (p, e)) c = Ok (p1, e1) /\ built e1 m1 /\
      forall T, m1 T = match gives_extension T c with Some v => v | None => m T end).
    { destruct c as [o|T v|f]; cbn [pb_step bind].
      - destruct (resp_op_apply p o) as [p1|x| |] eqn:A; cbn [pb_step bind] in E; rewrite A in E; cbn [bind] in E.
        + exists p1, e, m. split; [reflexivity|]. split; [exact Hb|]. reflexivity.
        + exfalso. clear - E. induction cs as [|c cs IH]; [discriminate E | apply IH; exact E].
        + exfalso. clear - E. induction cs as [|c cs IH]; [discriminate E | apply IH; exact E].
        + exfalso. clear - E. induction cs as [|c cs IH]; [discriminate E | apply IH; exact E].
      - do 3 eexists. split; [reflexivity|]. split; [apply bt_insert, Hb|].
        intros U. cbn [gives_extension]. destruct (U =? T); reflexivity.
      - do 3 eexists. split; [reflexivity|]. split; [exact Hb|]. reflexivity. }
    destruct K as (p1 & e1 & m1 & Es & Hb1 & Hm). rewrite Es in E.
    destruct (IH _ _ _ _ _ Hb1 E) as (m' & Hb' & L). exists m'. split; [exact Hb'|]. intros T.
    destruct (L T) as [(b & o & a & -> & G & F)|[F G]].
    + left. exists (c :: b), o, a. split; [reflexivity|]. auto.
    + rewrite Hm in G. destruct (gives_extension T c) as [v|] eqn:Gc.
      * left. exists [], c, cs. split; [reflexivity|]. split; [rewrite Gc; congruence|exact F].
      * right. split; [|exact G]. intros o [<-|I]; auto.
Qed.

Lemma method_eqb_ok a b : method_eqb a b = true <-> a = b.
Proof.
  destruct a, b; cbn [method_eqb]; split; intros H; try discriminate H; try reflexivity.
  - apply beq_eq in H. congruence.
  - injection H as ->. apply beq_refl.
Qed.
Lemma scheme_eqb_ok a b : scheme_eqb a b = true <-> a = b.
Proof.
  destruct a, b; cbn [scheme_eqb]; split; intros H; try discriminate H; try reflexivity.
  - apply beq_eq in H. congruence.
  - injection H as ->. apply beq_refl.
Qed.
