(** Lemmas for statements that were tightened after mutation testing: the exact language of HTTP2-Settings, defaults of
    into_request, the flags of received frames. *)
From Coq Require Import Ascii String NArith ZArith Lia Bool List ZifyBool ZifyNat ZifyN.
From Verif Require Import Base P_Base M_Std M_Helper M_Header M_Url M_Http1 S_Http1 S_Map S_Url S_Http1Api S_Hpack M_Hpack M_Frame M_H2 S_Frame S_H2Api S_H2Msg
  P_Frame P_Settings P_H2 P_H2Msg P_H2Req P_H2All P_UrlForm.
Import ListNotations.
Local Open Scope N_scope.
Ltac Zify.zify_post_hook ::= Z.div_mod_to_equations.

(** ** base64url: only canonical texts are decoded *)
Lemma b64_val_spec c v : b64_val c = Some v -> v < 64 /\ b64_char v = c.
Proof.
  unfold b64_val, b64_char. intros H.
  repeat match type of H with context [if ?b then _ else _] => destruct b eqn:? end; try discriminate H; injection H as <-.
  all: split; [lia|]. all: repeat match goal with |- context [if ?b then _ else _] => destruct b eqn:? end; lia.
Qed.
Lemma four_ind {A} (P : list A -> Prop) : P [] -> (forall a, P [a]) -> (forall a b, P [a; b]) -> (forall a b c, P [a; b; c]) ->
  (forall a b c d r, P r -> P (a :: b :: c :: d :: r)) -> forall l, P l.
Proof.
  intros H0 H1 H2 H3 H4. fix F 1. intros [|a [|b [|c [|d r]]]]; [exact H0|apply H1|apply H2|apply H3|apply H4, F].
Qed.
Lemma b64_decode_spec t : forall l, b64_decode t = Some l -> bytes_ok l /\ t = b64_encode l.
Proof.
  induction t as [|a|a b|a b c|a b c d r IH] using four_ind; intros l H; cbn [b64_decode] in H.
  - injection H as <-. split; [apply bytes_ok_nil|reflexivity].
  - discriminate H.
  - destruct (b64_val a) as [x|] eqn:A; [|discriminate H]. destruct (b64_val b) as [y|] eqn:B; [|discriminate H].
    destruct (y mod 16 =? 0) eqn:E; [|discriminate H]. injection H as <-. apply b64_val_spec in A as [A <-]. apply b64_val_spec in B as [B <-].
    apply N.eqb_eq in E. split; [apply bytes_ok_cons; split; [unfold byte_ok; lia|apply bytes_ok_nil]|]. cbn [b64_encode]. f_equal; [f_equal; lia|]. f_equal. f_equal. lia.
  - destruct (b64_val a) as [x|] eqn:A; [|discriminate H]. destruct (b64_val b) as [y|] eqn:B; [|discriminate H]. destruct (b64_val c) as [z|] eqn:C; [|discriminate H].
    destruct (z mod 4 =? 0) eqn:E; [|discriminate H]. injection H as <-. apply b64_val_spec in A as [A <-]. apply b64_val_spec in B as [B <-]. apply b64_val_spec in C as [C <-].
    apply N.eqb_eq in E. split; [apply bytes_ok_cons; split; [unfold byte_ok; lia|apply bytes_ok_cons; split; [unfold byte_ok; lia|apply bytes_ok_nil]]|].
    cbn [b64_encode]. f_equal; [f_equal; lia|]. f_equal; [f_equal; lia|]. f_equal. f_equal. lia.
  - destruct (b64_val a) as [x|] eqn:A; [|discriminate H]. destruct (b64_val b) as [y|] eqn:B; [|discriminate H]. destruct (b64_val c) as [z|] eqn:C; [|discriminate H].
    destruct (b64_val d) as [w|] eqn:D; [|discriminate H]. destruct (b64_decode r) as [r'|]; [|discriminate H]. injection H as <-.
    destruct (IH r' eq_refl) as [O ->]. clear IH. apply b64_val_spec in A as [A <-]. apply b64_val_spec in B as [B <-]. apply b64_val_spec in C as [C <-]. apply b64_val_spec in D as [D <-].
    split; [apply bytes_ok_cons; split; [unfold byte_ok; lia|apply bytes_ok_cons; split; [unfold byte_ok; lia|apply bytes_ok_cons; split; [unfold byte_ok; lia|exact O]]]|].
    cbn [b64_encode]. f_equal; [f_equal; lia|]. f_equal; [f_equal; lia|]. f_equal; [f_equal; lia|]. f_equal. f_equal. lia.
Qed.
Lemma b64_decode_iff t l : bytes_ok l -> (b64_decode t = Some l <-> base64url l t).
Proof.
  intros B. split.
  - intros H. apply b64_decode_spec in H as [_ ->]. apply b64_encode_spec, B.
  - intros H. apply base64url_unique in H; [|exact B]. subst t. apply b64_roundtrip, B.
Qed.
Lemma http_settings_exact t s : parse_http_settings t = Ok s <->
  exists es, base64url (concat (map entry_octets es)) t /\ Forall entry_range es /\ Forall entry_legal es /\ s = settings_of es.
Proof.
  split.
  - unfold parse_http_settings. destruct (b64_decode t) as [l|] eqn:E; [|discriminate]. intros H. apply b64_decode_spec in E as [B ->].
    apply parse_setting_exact in H; [|exact B]. destruct H as (es & -> & R & L & ->). exists es. split; [|auto]. apply b64_encode_spec, B.
  - intros (es & H & R & L & ->). rewrite (http_settings_parse_text es t R H). apply forallb_legal in L. rewrite L. reflexivity.
Qed.
Lemma http_settings_bad t : (forall l, bytes_ok l -> ~ base64url l t) -> parse_http_settings t = Err (EHttp2 InvalidSettingValue).
Proof.
  intros H. unfold parse_http_settings. destruct (b64_decode t) as [l|] eqn:E; [|reflexivity]. apply b64_decode_spec in E as [B ->].
  destruct (H l B). apply b64_encode_spec, B.
Qed.
Lemma http_settings_length t l : bytes_ok l -> base64url l t -> blen l mod 6 <> 0 -> parse_http_settings t = Err (EHttp2 InvalidPayloadLength).
Proof.
  intros B H M. unfold parse_http_settings. rewrite (proj2 (b64_decode_iff t l B) H). apply parse_setting_err; [exact B|]. left. auto.
Qed.

(** ** into_request with pseudo fields missing *)
Definition given {A} (o : option A) (d : A) : A := match o with Some a => a | None => d end.
Lemma into_request_given h q mo so a po st u d n : hf_parts h = mkParts mo so (Some a) po st ->
  url_parse (given (option_map scheme_str so) (str "http") ++ str "://" ++ a ++ given po (str "/")) = Ok u -> u_domain u = Some d -> u_port u = Some n ->
  regular (hf_fields h) -> ~ In (str "host") (map fst (hf_fields h)) -> q_header q = [] ->
  headers_into_request h q = Ok (mkReq (given mo (q_method q)) (q_version q) u ((str "Host", d ++ 58 :: dec_print n) :: hf_fields h) (q_partial q)).
Proof.
  intros P U D N R H Q. unfold headers_into_request, parts_build_url. rewrite P. cbn [pt_authority pt_scheme pt_path pt_method].
  assert (V : url_parse (scheme_str (match so with Some s => s | None => ScHttp end) ++ str "://" ++ a ++ (match po with Some x => x | None => str "/" end)) = Ok u).
  { destruct so, po; exact U. }
  rewrite V. cbn [bind]. unfold url_connect. rewrite D, N, Q. cbn [hm_insert].
  destruct q as [qm qv qu qh qp]. cbn [req_set_header req_set_url req_set_method q_header q_version q_method q_url q_partial] in *.
  destruct mo as [m|]; cbn [given req_set_header req_set_url req_set_method q_header q_version q_method q_url q_partial];
    (rewrite regular_insert_all; [reflexivity|exact R|apply host_fresh; assumption]).
Qed.
Lemma into_request_no_authority h q : pt_authority (hf_parts h) = None -> headers_into_request h q = Err (EHttp2 InvalidRequesetUrl).
Proof. intros A. unfold headers_into_request, parts_build_url. rewrite A. reflexivity. Qed.

(** ** The predicates on received frames *)
Lemma contains_bit f i : flag_contains f (2 ^ i) = N.testbit f i.
Proof.
  unfold flag_contains. destruct (N.testbit f i) eqn:E.
  - apply N.eqb_eq, N.bits_inj. intros k. rewrite N.land_spec, N.pow2_bits_eqb. destruct (N.eqb_spec i k) as [->|]; [rewrite E; reflexivity|apply andb_false_r].
  - apply N.eqb_neq. intros H. apply (f_equal (fun x => N.testbit x i)) in H. rewrite N.land_spec, E, N.pow2_bits_true in H. discriminate H.
Qed.
Lemma parse_predicates t h l L t' f : frame_parse t h l L = (t', Ok f) ->
  frame_is_data f = kind_eqb (fh_kind h) KData /\ frame_is_header f = kind_eqb (fh_kind h) KHeaders /\
  frame_is_end_stream f = (kind_eqb (fh_kind h) KData || kind_eqb (fh_kind h) KHeaders) && N.testbit (fh_flag h) 0 /\
  frame_is_end_headers f = kind_eqb (fh_kind h) KHeaders && N.testbit (fh_flag h) 2.
Proof.
  intros H. pose proof (parse_kind _ _ _ _ _ _ H) as K. pose proof (parse_flags _ _ _ _ _ _ H) as F. rewrite <- K in *.
  destruct f; cbn [kind_of] in *; cbn [frame_is_data frame_is_header frame_is_end_stream frame_is_end_headers frame_flags] in *; repeat split; try reflexivity.
  - rewrite F by auto. cbn. apply (contains_bit _ 0).
  - rewrite F by auto. cbn. apply (contains_bit _ 0).
  - rewrite F by auto. cbn. apply (contains_bit _ 2).
Qed.
