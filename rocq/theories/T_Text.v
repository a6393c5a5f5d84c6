(** C94 and C95: character classes and text conversions. *)
From Coq Require Import Ascii String NArith ZArith Bool List.
From Verif Require Import Base S_Utf8 P_Base M_Std M_Helper M_Url M_Http1 S_Http1 S_Http1Api S_Hex S_Url S_Build S_Exact M_Text S_Text P_Text.
Import ListNotations.
Local Open Scope N_scope.

(** ** C94: every character class, octet by octet. *)
Theorem C94_letters : recognises is_alpha alpha.
Proof. exact alpha_class. Qed.
Print Assumptions C94_letters.
Theorem C94_digits : recognises is_digit digit.
Proof. exact digit_class. Qed.
Print Assumptions C94_digits.
Theorem C94_hex_digits : recognises is_hex hex_byte.
Proof. exact hex_class. Qed.
Print Assumptions C94_hex_digits.
Theorem C94_hex_value : forall b d, byte_ok b -> (convert_hex b = Some d <-> hexv b d).
Proof. exact convert_hex_class. Qed.
Print Assumptions C94_hex_value.
Theorem C94_hex_digit : forall d h, to_hex_res d = Ok h <-> upper_hex h d.
Proof. exact to_hex_exact. Qed.
Print Assumptions C94_hex_digit.
(** A value that is no hexadecimal digit is a panic, not an error. *)
Theorem C94_hex_digit_panics : forall d, to_hex_res d = Panic <-> 16 <= d.
Proof. exact to_hex_panics. Qed.
Print Assumptions C94_hex_digit_panics.
Theorem C94_hex_inverse : forall d h, to_hex_res d = Ok h -> convert_hex h = Some d.
Proof. exact hex_inverse. Qed.
Print Assumptions C94_hex_inverse.
Theorem C94_token : recognises is_token vchar.
Proof. exact token_class. Qed.
Print Assumptions C94_token.
Theorem C94_reason : recognises is_status_token printable.
Proof. exact status_class. Qed.
Print Assumptions C94_reason.
Theorem C94_header_name : recognises is_header_name_token tchar.
Proof. exact name_class. Qed.
Print Assumptions C94_header_name.
Theorem C94_header_value : recognises is_header_value_token (fun b => b <> CR).
Proof. exact value_class. Qed.
Print Assumptions C94_header_value.
Theorem C94_scheme : recognises is_scheme_token scheme_char.
Proof. exact scheme_class. Qed.
Print Assumptions C94_scheme.
Theorem C94_unescaped : recognises is_not_uritrans safe_char.
Proof. exact plain_class. Qed.
Print Assumptions C94_unescaped.
Theorem C94_uri : recognises is_uri_token (fun b => vchar b /\ b <> 60 /\ b <> 62).
Proof. exact uri_class. Qed.
Print Assumptions C94_uri.
(** Three classes are not what their documentation lists: a token may contain
    delimiters, the URI class accepts a quote and a brace, the octets left
    unescaped include "=" and "@" but not "~". *)
Theorem C94_token_documented_refuted : ~ recognises is_token tchar /\
  (forall b, byte_ok b -> tchar b -> is_token b = true).
Proof.
  split.
  - intros H. assert (T : tchar 40) by (apply H; reflexivity). apply word_b_ok in T. discriminate T.
  - intros b Hb T. apply token_class; [exact Hb|]. apply name_class in T; [|exact Hb].
    assert (K : class_eqb (fun b => implb (is_header_name_token b) (is_token b)) (fun _ => true) = true) by (vm_compute; reflexivity).
    pose proof (class_eqb_ok _ _ K b Hb) as E. cbn beta in E. rewrite T in E. apply token_class in E; assumption.
Qed.
Print Assumptions C94_token_documented_refuted.
Theorem C94_uri_documented_refuted : ~ recognises is_uri_token doc_uri_char /\
  (forall b, byte_ok b -> doc_uri_char b -> is_uri_token b = true).
Proof.
  split.
  - intros H. assert (T : doc_uri_char 123) by (apply H; reflexivity). apply word_b_ok in T. discriminate T.
  - intros b Hb T. apply word_b_ok in T.
    assert (K : class_eqb (fun b => implb (word_b (str "!#$%&'*+-._();:@=,/?[]~^") b) (is_uri_token b)) (fun _ => true) = true)
      by (vm_compute; reflexivity).
    pose proof (class_eqb_ok _ _ K b Hb) as E. cbn beta in E. rewrite T in E. exact E.
Qed.
Print Assumptions C94_uri_documented_refuted.
Theorem C94_unescaped_documented_refuted :
  is_not_uritrans 126 = false /\ doc_plain_char 126 /\
  is_not_uritrans 61 = true /\ ~ doc_plain_char 61 /\ is_not_uritrans 64 = true /\ ~ doc_plain_char 64.
Proof.
  repeat split; try reflexivity.
  - apply word_b_ok. reflexivity.
  - intros H. apply word_b_ok in H. discriminate H.
  - intros H. apply word_b_ok in H. discriminate H.
Qed.
Print Assumptions C94_unescaped_documented_refuted.
Example C94_nonvacuous : byte_ok 255 /\ is_uri_token 255 = false /\ is_header_value_token 255 = true /\
  is_uri_token 35 = true /\ is_scheme_token 43 = true /\ convert_hex 70 = Some 15 /\ to_hex_res 15 = Ok 70 /\ to_hex_res 16 = Panic.
Proof. repeat split. Qed.

(** ** C95: parsing text into methods, schemes and versions. *)
(** Exactly which texts are read as which method, whatever the rest of the
    Unicode table says. *)
Theorem C95_method_exact : forall other, stays_foreign other -> forall cs m,
  method_from_text other cs = Ok m <-> exists s, In (m, s) method_names /\ spells cs (str s).
Proof. exact method_parse. Qed.
Print Assumptions C95_method_exact.
Theorem C95_method_rejects : forall other, stays_foreign other -> forall cs,
  (forall m s, In (m, s) method_names -> ~ spells cs (str s)) -> method_from_text other cs = Err (EHttp MethodErr).
Proof. exact method_parse_err. Qed.
Print Assumptions C95_method_rejects.
(** The property itself, for ASCII text: the nine names in any case. *)
Theorem C95_method_any_case_partial : forall other, stays_foreign other ->
  forall cs, Forall (fun c => c < 128) cs -> forall m,
  method_from_text other cs = Ok m <-> exists s, In (m, s) method_names /\ any_case cs (str s).
Proof. exact method_parse_ascii. Qed.
Print Assumptions C95_method_any_case_partial.
(** Missing: text that is no ASCII word can name a method.  "po" followed by the
    st ligature is POST, "opt\u{131}ons" is OPTIONS. *)
Theorem C95_method_any_case_refuted : forall other,
  method_from_text other [112; 111; 0xFB06] = Ok MPost /\
  method_from_text other [111; 112; 116; 0x131; 111; 110; 0x17F] = Ok MOptions /\
  ~ exists s, In (MPost, s) method_names /\ any_case [112; 111; 0xFB06] (str s).
Proof.
  intros other. split; [reflexivity|]. split; [reflexivity|].
  intros (s & K & H). cbn in K.
  repeat (destruct K as [K|K]; [first [discriminate K | injection K as <-; apply any_case_length in H; vm_compute in H; discriminate H]|]).
  contradiction.
Qed.
Print Assumptions C95_method_any_case_refuted.

(** A scheme read with [str::parse] is never one of the five known ones: the
    text is turned into capitals and then compared with small letters. *)
Theorem C95_scheme_exact : forall other, stays_foreign other -> forall cs,
  scheme_from_text other cs =
    (if blen (utf8_text (str_upper other cs)) <=? 64 then Ok (ScExt (utf8_text (str_upper other cs)))
     else Err (EUrl UrlInvalid)).
Proof. exact scheme_parse. Qed.
Print Assumptions C95_scheme_exact.
Theorem C95_scheme_refuted : forall other s k, In (s, k) scheme_names ->
  scheme_from_text other (str k) <> Ok s /\ scheme_of_str (str k) = Ok s /\
  scheme_from_text other (str k) = Ok (ScExt (map ascii_upper (str k))).
Proof.
  intros other s k I. cbn in I.
  repeat (destruct I as [I|I]; [injection I as <- <-; split; [discriminate | split; reflexivity]|]). contradiction.
Qed.
Print Assumptions C95_scheme_refuted.
(** Exactly which schemes are read back from their own text by the other
    conversion. *)
Theorem C95_scheme_round_trip : forall s, scheme_of_str (scheme_str s) = Ok s <->
  s <> ScNone /\ forall t, s = ScExt t -> blen t <= 64 /\ forall s' k, In (s', k) scheme_names -> t <> str k.
Proof. exact scheme_round. Qed.
Print Assumptions C95_scheme_round_trip.
Theorem C95_scheme_predicates : forall s,
  (scheme_is_none s = true <-> s = ScNone) /\ (scheme_is_http s = true <-> s = ScHttp) /\
  (scheme_is_https s = true <-> s = ScHttps) /\ (scheme_is_ws s = true <-> s = ScWs) /\
  (scheme_is_wss s = true <-> s = ScWss).
Proof. intros s. destruct s; repeat split; intros H; try reflexivity; discriminate H. Qed.
Print Assumptions C95_scheme_predicates.

(** Versions: every version is read back from its text, other text is no
    version, and the text of "no version" is such a text. *)
Theorem C95_version_round_trip : forall v, version_of_str (version_str v) = v.
Proof. exact version_round. Qed.
Print Assumptions C95_version_round_trip.
Theorem C95_version_unknown : forall t,
  (forall v s, In (v, s) version_names -> t <> str s) -> version_of_str t = VNone.
Proof. exact version_unknown. Qed.
Print Assumptions C95_version_unknown.
Theorem C95_version_predicates : forall v,
  (version_is_http1 v = true <-> v = V10 \/ v = V11) /\ (version_is_http2 v = true <-> v = V2).
Proof. intros v. destruct v; repeat split; intros H; try discriminate H; auto; destruct H; discriminate. Qed.
Print Assumptions C95_version_predicates.

(** A URL equals a text, from either side, exactly when the text is what Display
    shows; for a URL that can be written and read the text is then a way to
    write it. *)
Theorem C95_url_text : forall u t,
  (url_eq_text u t = true <-> t = url_print u) /\ text_eq_url t u = url_eq_text u t.
Proof. intros u t. split; [apply url_text | reflexivity]. Qed.
Print Assumptions C95_url_text.
Theorem C95_url_text_parses : forall u t, legal_url u \/ legal_origin u -> utf8_url u ->
  url_eq_text u t = true -> url_parse t = Ok u.
Proof. exact url_text_parses. Qed.
Print Assumptions C95_url_text_parses.
(** Two different URLs can both equal the same text. *)
Theorem C95_url_text_refuted : exists u u' t, utf8_url u /\ utf8_url u' /\ u <> u' /\
  url_eq_text u t = true /\ url_eq_text u' t = true.
Proof.
  exists (mkUrl ScHttp (str "/") (Some []) None (Some (str "h")) None None).
  exists (mkUrl ScHttp (str "/") None (Some []) (Some (str "h")) None None).
  exists (str "http://:@h/").
  split; [|split; [|split; [discriminate | split; vm_compute; reflexivity]]];
    repeat split; cbn; try exact I; apply utf8_valid_iff; reflexivity.
Qed.
Print Assumptions C95_url_text_refuted.

(** A table that satisfies the hypothesis: no scalar value beyond ASCII changes. *)
Example C95_nonvacuous :
  stays_foreign (fun c => [c]) /\ method_from_text (fun c => [c]) (str "dElEtE") = Ok MDelete /\
  any_case (str "dElEtE") (str "DELETE") /\ method_from_text (fun c => [c]) (112 :: 0xE9 :: []) = Err (EHttp MethodErr) /\
  scheme_from_text (fun c => [c]) (str "http") = Ok (ScExt (str "HTTP")) /\
  scheme_of_str (scheme_str (ScExt (str "git+ssh"))) = Ok (ScExt (str "git+ssh")) /\
  version_of_str (str "http/1.1") = VNone.
Proof.
  split; [intros c H; exists c; split; [left; reflexivity | exact H]|].
  split; [reflexivity|]. split; [|repeat split].
  change (Forall2 same_letter [100; 69; 108; 69; 116; 69] [68; 69; 76; 69; 84; 69]).
  repeat (apply Forall2_cons; [first [left; reflexivity | right; split; [split; discriminate | reflexivity]]|]). apply Forall2_nil.
Qed.
