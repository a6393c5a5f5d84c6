(** Lemmas on requests and responses in HEADERS frames, and on all frames. *)
From Coq Require Import Ascii String NArith ZArith Lia Bool List ZifyBool ZifyNat ZifyN.
From Verif Require Import Base P_Base M_Std M_Helper M_Header M_Url M_Http1 S_Http1 S_Http1Api S_Map P_Map P_Helper P_Http1 P_Msg S_Utf8 S_Url P_Url P_UrlForm
  M_Hpack S_Hpack S_HpackApi P_HpackTable P_HpackCodec P_HpackSync M_Frame M_H2 S_Frame S_H2Api P_Frame P_Settings P_Ctl P_Data P_H2 P_H2Msg.
Import ListNotations.
Local Open Scope N_scope.
Ltac Zify.zify_post_hook ::= Z.div_mod_to_equations.

(** ** Names *)
Lemma no_paren : ~ tchar 40.
Proof. intros [[K|K]|[K|K]]; [unfold upper in K; lia|unfold lower in K; lia|unfold digit in K; lia|]. cbn in K. repeat (destruct K as [K|K]; [discriminate K|]). destruct K. Qed.
Lemma h2_upper_h b : h2_char b -> b < 128 -> 72 = b \/ (72 + 32) mod 256 = b \/ (b + 32) mod 256 = 72 -> b = 104.
Proof.
  intros H L W. assert (D : b = 72 \/ b = 104 \/ b = 40) by (clear H; lia). destruct D as [->|[->| ->]]; [|reflexivity|].
  - destruct H as [(_ & U & _)|H]; [destruct U; unfold upper; lia|discriminate H].
  - destruct H as [(T & _ & _)|H]; [destruct (no_paren T)|discriminate H].
Qed.
Lemma h2_lower_letter k b : 97 <= k <= 122 -> h2_char b -> b < 128 -> k = b \/ (k + 32) mod 256 = b \/ (b + 32) mod 256 = k -> b = k.
Proof.
  intros K H L W. assert (D : b = k \/ b = k - 32) by (clear H; lia). destruct D as [->|D]; [reflexivity|]. exfalso.
  destruct H as [(_ & U & _)|H]; [apply U; unfold upper; clear -D K; lia|clear -D K H; lia].
Qed.
Lemma host_name_eq n : Forall h2_char n -> n <> str "host" -> name_eq (str "Host") n = false.
Proof.
  intros H N. destruct (name_eq (str "Host") n) eqn:E; [|reflexivity]. exfalso. apply N. clear N.
  pose proof (h2_ascii n H) as B. apply name_eq_iff in E; [|apply bytes_ok_of, asciib_ok; reflexivity|apply bytes_ok_of, B].
  change (str "Host") with [72; 111; 115; 116] in E.
  inversion E as [|? b1 ? n1 E1 E']; subst. inversion E' as [|? b2 ? n2 E2 E'']; subst. inversion E'' as [|? b3 ? n3 E3 E3']; subst.
  inversion E3' as [|? b4 ? n4 E4 E4']; subst. inversion E4'; subst. clear E E' E'' E3' E4'.
  repeat match goal with K : Forall h2_char (_ :: _) |- _ => apply Forall_cons_iff in K as [? K] end.
  repeat match goal with K : Forall (fun x => x < 128) (_ :: _) |- _ => apply Forall_cons_iff in K as [? K] end. cbn beta in *.
  apply h2_upper_h in E1; [|assumption..]. apply h2_lower_letter in E2; [|split; discriminate|assumption..].
  apply h2_lower_letter in E3; [|split; discriminate|assumption..]. apply h2_lower_letter in E4; [|split; discriminate|assumption..].
  subst. reflexivity.
Qed.

(** ** Into a request, into a response *)
Lemma host_fresh fs : regular fs -> ~ In (str "host") (map fst fs) -> forall (c : bytes) (e g : hfield), In e [(str "Host", c)] -> In g fs -> name_eq (fst e) (fst g) = false.
Proof.
  intros (R & _) N c e g [<-|[]] J. cbn [fst]. unfold h2_names in R. rewrite Forall_forall in R. apply host_name_eq; [exact (R g J)|].
  intros E. apply N. rewrite <- E. apply List.in_map, J.
Qed.
Lemma into_request_spec h q m a s p fs u d n : hf_parts h = request_parts m a s p -> hf_fields h = fs ->
  url_parse (scheme_str s ++ str "://" ++ a ++ p) = Ok u -> u_domain u = Some d -> u_port u = Some n ->
  regular fs -> ~ In (str "host") (map fst fs) -> q_header q = [] ->
  headers_into_request h q = Ok (mkReq m (q_version q) u ((str "Host", d ++ 58 :: dec_print n) :: fs) (q_partial q)).
Proof.
  intros P F U D N R H Q. unfold headers_into_request. rewrite P. unfold request_parts, parts_build_url. cbn [pt_authority pt_scheme pt_path pt_method].
  rewrite U. cbn [bind]. unfold url_connect. rewrite D, N, Q. cbn [hm_insert].
  rewrite F. destruct q as [qm qv qu qh qp]. cbn [req_set_header req_set_url req_set_method q_header q_version q_method q_url q_partial].
  rewrite regular_insert_all; [reflexivity|exact R|]. apply host_fresh; assumption.
Qed.
Lemma into_response_spec h p c fs : hf_parts h = parts_response c -> hf_fields h = fs -> regular fs -> p_header p = [] ->
  headers_into_response h p = mkResp c (p_version p) fs (p_partial p).
Proof.
  intros P F R Q. unfold headers_into_response. rewrite P, F. unfold parts_response. cbn [pt_method pt_status].
  destruct p as [ps pv ph pp]. cbn [resp_set_status resp_set_header p_header p_status p_version p_partial] in *. subst ph.
  rewrite regular_insert_all; [reflexivity|exact R|]. intros e g [].
Qed.

(** ** From a request *)
Lemma parts_fields m u s d p : u_scheme u = s -> u_domain u = Some d -> u_path u = p -> s <> ScNone -> p <> [] ->
  parts_encode_header (parts_request m u None) [] = request_fields m d s p [].
Proof.
  intros S D P NS NP. unfold parts_request, parts_encode_header. cbn [pt_method pt_scheme pt_authority pt_path pt_status option_map opt_insert].
  rewrite S, D, P. destruct p as [|b p]; [contradiction|]. destruct s; try contradiction; reflexivity.
Qed.
Lemma spec_fresh fs n : regular fs -> Forall h2_char n -> hd_error n = Some 58 -> forall g, In g fs -> name_eq n (fst g) = false.
Proof.
  intros (R & _ & C) H S g J. unfold h2_names in R. rewrite Forall_forall in R, C. apply h2_name_neq; [exact H|exact (R g J)|].
  intros E. pose proof (C g J) as C1. cbn beta in C1. rewrite E in S. exact (C1 S).
Qed.
Lemma h2_spec_names : Forall (Forall h2_char) (map str [":method"; ":authority"; ":scheme"; ":path"; ":status"]%string).
Proof.
  assert (K : forall l, forallb h2_charb l = true -> Forall h2_char l).
  { intros l H. pose proof (h2_charb_ok [(l, [])]) as Q. cbn [forallb fst] in Q. rewrite H in Q. specialize (Q eq_refl). apply Forall_cons_iff in Q. apply Q. }
  cbn [map]. repeat (apply Forall_cons; [apply K; vm_compute; reflexivity|]). apply Forall_nil.
Qed.
Lemma insert_request m d s p fs : regular fs -> hm_insert_all (request_fields m d s p []) fs = request_fields m d s p fs.
Proof.
  intros R. rewrite regular_insert_all; [reflexivity|exact R|]. intros e g I J. pose proof h2_spec_names as H. cbn [map] in H.
  repeat match goal with K : Forall _ (_ :: _) |- _ => apply Forall_cons_iff in K as [? K] end.
  cbn [request_fields app In] in I. repeat (destruct I as [<-|I]; [cbn [fst]; apply (spec_fresh fs); auto|]). destruct I.
Qed.
Lemma insert_response c fs : regular fs -> hm_insert_all (parts_encode_header (parts_response c) []) fs = (str ":status", status_str c) :: fs.
Proof.
  intros R. unfold parts_encode_header, parts_response. cbn [pt_method pt_scheme pt_authority pt_path pt_status option_map opt_insert hm_insert].
  rewrite regular_insert_all; [reflexivity|exact R|]. intros e g [<-|[]] J. pose proof h2_spec_names as H. cbn [map] in H.
  repeat match goal with K : Forall _ (_ :: _) |- _ => apply Forall_cons_iff in K as [? K] end. cbn [fst]. apply (spec_fresh fs); auto.
Qed.
Lemma plain_path_part p : plain_path p -> path_part p p /\ p <> [] /\ is_utf8 p.
Proof.
  intros [H F]. destruct p as [|b t]; [discriminate H|]. cbn in H. injection H as ->.
  assert (U : is_utf8 (47 :: t)).
  { apply utf8_valid_iff, utf8_valid_ascii. eapply Forall_impl; [|exact F]. unfold vchar. cbn. lia. }
  split; [|split; [discriminate|exact U]]. apply Forall_cons_iff in F as [F0 F]. constructor.
  - eapply Forall_impl; [|exact F]. unfold path_char. cbn. tauto.
  - split; [|exact U]. apply pct_form_plain. intros [K|K]; [discriminate K|]. rewrite Forall_forall in F. specialize (F _ K). cbn beta in F. lia.
Qed.
