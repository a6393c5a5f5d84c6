(** Lemmas on percent-encoding and URLs. *)
From Coq Require Import Ascii String NArith ZArith Lia Bool List ZifyBool ZifyNat ZifyN.
From Verif Require Import Base S_Utf8 P_Base M_Std P_Std M_Helper M_Header M_Url M_Http1 S_Http1 S_Http1Api S_Hex S_Url P_Helper P_Header P_Http1 P_Msg P_Chunk.
Import ListNotations.
Local Open Scope N_scope.
Ltac Zify.zify_post_hook ::= Z.div_mod_to_equations.

(** ** Percent-encoding *)
Definition safeb (b : N) : bool :=
  ((65 <=? b) && (b <=? 90)) || ((97 <=? b) && (b <=? 122)) || ((48 <=? b) && (b <=? 57)) ||
  existsb (N.eqb b) (str "-._/:?=&@").
Lemma safeb_ok b : safeb b = true <-> safe_char b.
Proof.
  unfold safeb, safe_char, alpha, upper, lower, digit. rewrite !orb_true_iff, existsb_exists. split.
  - intros [[[H|H]|H]|(x & H & E)]; [left; left; lia|left; right; lia|right; left; lia|].
    apply N.eqb_eq in E. subst x. right. right. exact H.
  - intros [[H|H]|[H|H]]; [left; left; left; lia|left; left; right; lia|left; right; lia|].
    right. exists b. split; [exact H|apply N.eqb_refl].
Qed.
Lemma uritrans_safe b : b < 256 -> (is_not_uritrans b = true <-> safe_char b).
Proof.
  intros H. rewrite <- safeb_ok. assert (G : Bool.eqb (is_not_uritrans b) (safeb b) = true).
  { revert b H. apply byte_sweep. vm_compute. reflexivity. }
  apply eqb_prop in G. rewrite G. tauto.
Qed.
Lemma to_hex_upper d : d < 16 -> upper_hex (to_hex d) d.
Proof. intros H. unfold upper_hex, to_hex. apply nth_error_nth'. cbn. lia. Qed.
Lemma upper_hex_fun b c d : upper_hex b d -> upper_hex c d -> b = c.
Proof. unfold upper_hex. intros H1 H2. congruence. Qed.
Lemma upper_hex_lt b d : upper_hex b d -> d < 16.
Proof.
  unfold upper_hex. intros H. assert (L : (N.to_nat d < length (str "0123456789ABCDEF"))%nat) by (apply nth_error_Some; congruence).
  cbn in L. lia.
Qed.
Lemma upper_hexv b d : upper_hex b d -> hexv b d.
Proof. intros H. right. exact H. Qed.
Definition raw_encode (s : bytes) : bytes := concat (map url_encode_byte s).
Lemma raw_encode_escaped s : bytes_ok s -> escaped s (raw_encode s).
Proof.
  unfold raw_encode. induction s as [|b s IH]; intros H; [constructor|]. apply bytes_ok_cons in H as [Hb H]. cbn [map concat].
  unfold url_encode_byte at 1. destruct (is_not_uritrans b) eqn:E.
  - apply uritrans_safe in E; [|exact Hb]. constructor; [exact E|apply IH, H].
  - cbn [app]. unfold byte_ok in Hb. apply (es_esc b _ (b / 16) _ (b mod 16)); [|lia|apply to_hex_upper; lia|apply to_hex_upper; lia|apply IH, H].
    rewrite <- uritrans_safe by exact Hb. congruence.
Qed.
Lemma escaped_fun s l : escaped s l -> forall l', escaped s l' -> l = l'.
Proof.
  induction 1 as [|b s l Hs H IH|b h x k y s l Hs E H1 H2 H IH]; intros l' H'; inversion H' as [|? ? ? Hs' H''|? h' x' k' y' ? ? Hs' E' H1' H2' H'']; subst;
    try contradiction; [reflexivity|f_equal; auto|].
  pose proof (upper_hex_lt _ _ H2). pose proof (upper_hex_lt _ _ H2').
  pose proof (upper_hex_lt _ _ H1). pose proof (upper_hex_lt _ _ H1').
  assert (x = x') as <- by lia. assert (y = y') as <- by lia.
  f_equal. f_equal; [eapply upper_hex_fun; eassumption|]. f_equal; [eapply upper_hex_fun; eassumption|]. auto.
Qed.
Lemma safe_lt b : safe_char b -> 33 <= b < 127 /\ b <> 37.
Proof.
  unfold safe_char, alpha, upper, lower, digit. intros [[H|H]|[H|H]]; try lia. cbn in H.
  repeat destruct H as [<-|H]; lia.
Qed.
Lemma hexv_lt_byte b d : hexv b d -> 48 <= b <= 102.
Proof.
  intros H. apply hexv_spec in H. unfold convert_hex in H.
  repeat match type of H with (if ?c then _ else _) = _ => destruct c eqn:?E end; try discriminate; lia.
Qed.
Lemma escaped_ascii s l : escaped s l -> Forall (fun b => 33 <= b < 127) l.
Proof.
  induction 1 as [|b s l Hs H IH|b h x k y s l Hs E H1 H2 H IH]; [constructor| |].
  - apply safe_lt in Hs. constructor; [tauto|exact IH].
  - apply upper_hexv, hexv_lt_byte in H1, H2. repeat (constructor; [lia|]). exact IH.
Qed.
Lemma url_encode_raw s : bytes_ok s -> url_encode s = raw_encode s.
Proof.
  intros H. apply utf8_lossy_valid, utf8_valid_ascii. apply raw_encode_escaped, escaped_ascii in H.
  eapply Forall_impl; [|exact H]. cbn. lia.
Qed.
Lemma url_encode_spec s l : bytes_ok s -> (url_encode s = l <-> escaped s l).
Proof.
  intros H. rewrite url_encode_raw by exact H. pose proof (raw_encode_escaped s H) as E. split.
  - intros <-. exact E.
  - intros H'. exact (escaped_fun _ _ E _ H').
Qed.
Lemma escaped_pct s l : escaped s l -> pct_form l s.
Proof.
  induction 1 as [|b s l Hs H IH|b h x k y s l Hs E H1 H2 H IH]; [constructor| |].
  - apply safe_lt in Hs. constructor; [tauto|exact IH].
  - subst b. constructor; [apply upper_hexv, H1|apply upper_hexv, H2|exact IH].
Qed.
Lemma hexv_fun b d d' : hexv b d -> hexv b d' -> d = d'.
Proof. intros H H'. apply hexv_spec in H, H'. congruence. Qed.
Lemma pct_form_fun l s : pct_form l s -> forall s', pct_form l s' -> s = s'.
Proof.
  induction 1 as [|b l s Hb H IH|h x k y l s H1 H2 H IH]; intros s' H'; inversion H'; subst; try congruence; [f_equal; auto|].
  f_equal; [|auto]. f_equal; [f_equal; eapply hexv_fun; eassumption|eapply hexv_fun; eassumption].
Qed.
Lemma escaped_inj s s' l : escaped s l -> escaped s' l -> s = s'.
Proof. intros H H'. apply escaped_pct in H, H'. exact (pct_form_fun _ _ H _ H'). Qed.
Lemma decode_bytes_ok l s : url_decode_bytes l = Ok s <-> pct_form l s.
Proof.
  split.
  - remember (length l) as n eqn:En. revert l s En. induction n as [n IH] using lt_wf_ind. intros l s En H.
    destruct l as [|b l]; [injection H as <-; constructor|]. cbn [url_decode_bytes] in H. cbn [length] in En.
    destruct (b =? 37) eqn:E.
    + apply N.eqb_eq in E. subst b. destruct l as [|a [|c l]]; try discriminate.
      destruct (convert_hex a) as [t|] eqn:Ea; [|discriminate]. destruct (convert_hex c) as [u|] eqn:Ec; [|discriminate].
      apply bind_ok in H as (r & H & K). injection K as <-. replace (t * 16 + u) with (16 * t + u) by lia.
      constructor; [apply hexv_spec, Ea|apply hexv_spec, Ec|]. apply (IH (length l)); [cbn [length] in En; lia|reflexivity|exact H].
    + apply bind_ok in H as (r & H & K). injection K as <-. constructor; [lia|].
      apply (IH (length l)); [lia|reflexivity|exact H].
  - induction 1 as [|b l s Hb H IH|h x k y l s H1 H2 H IH]; [reflexivity| |].
    + cbn [url_decode_bytes]. destruct (b =? 37) eqn:E; [lia|]. rewrite IH. reflexivity.
    + cbn [url_decode_bytes]. change (37 =? 37) with true. cbv iota. apply hexv_spec in H1, H2. rewrite H1, H2, IH. cbn [bind].
      do 2 f_equal. lia.
Qed.
Lemma decode_bytes_total l : (exists s, url_decode_bytes l = Ok s) \/ url_decode_bytes l = Err (EUrl UrlCodeInvalid).
Proof.
  remember (length l) as n eqn:En. revert l En. induction n as [n IH] using lt_wf_ind. intros l En.
  destruct l as [|b l]; [left; eexists; reflexivity|]. cbn [url_decode_bytes]. cbn [length] in En.
  destruct (b =? 37).
  - destruct l as [|a [|c l]]; auto. destruct (convert_hex a); auto. destruct (convert_hex c); auto.
    destruct (IH (length l)) with (l := l) as [(r & ->)|K]; [cbn [length] in En; lia|reflexivity|left; eexists; reflexivity|].
    rewrite K. auto.
  - destruct (IH (length l)) with (l := l) as [(r & ->)|K]; [lia|reflexivity|left; eexists; reflexivity|]. rewrite K. auto.
Qed.
Lemma url_decode_spec l s : url_decode l = Ok s <-> exists r, pct_form l r /\ s = utf8_lossy r.
Proof.
  unfold url_decode. split.
  - intros H. apply bind_ok in H as (r & H & K). injection K as <-. exists r. split; [apply decode_bytes_ok, H|reflexivity].
  - intros (r & H & ->). apply decode_bytes_ok in H. rewrite H. reflexivity.
Qed.
Lemma url_decode_err l : (forall s, ~ pct_form l s) <-> url_decode l = Err (EUrl UrlCodeInvalid).
Proof.
  unfold url_decode. split.
  - intros H. destruct (decode_bytes_total l) as [(s & E)|E]; [apply decode_bytes_ok in E; exfalso; eapply H, E|rewrite E; reflexivity].
  - intros H s K. apply decode_bytes_ok in K. rewrite K in H. discriminate.
Qed.
Lemma pct_form_plain l : ~ In 37 l -> pct_form l l.
Proof.
  induction l as [|b l IH]; intros H; [constructor|]. constructor.
  - intros ->. apply H. left. reflexivity.
  - apply IH. intros K. apply H. right. exact K.
Qed.
Lemma url_roundtrip s : bytes_ok s -> url_decode (url_encode s) = Ok (utf8_lossy s).
Proof.
  intros H. apply url_decode_spec. exists s. split; [|reflexivity]. rewrite url_encode_raw by exact H.
  apply escaped_pct, raw_encode_escaped, H.
Qed.
Lemma utf8_bytes_ok s : is_utf8 s -> bytes_ok s.
Proof.
  intros (cs & H & ->). unfold utf8_text. induction H as [|c cs Hc _ IH]; [constructor|]. cbn [flat_map].
  apply bytes_ok_app. split; [|exact IH]. unfold utf8_enc, scalar in *.
  destruct (c <? 0x80) eqn:E1; [repeat constructor; unfold byte_ok; lia|].
  destruct (c <? 0x800) eqn:E2; [repeat constructor; unfold byte_ok; lia|].
  destruct (c <? 0x10000) eqn:E3; repeat constructor; unfold byte_ok; lia.
Qed.
Lemma url_roundtrip_utf8 s : is_utf8 s -> url_decode (url_encode s) = Ok s.
Proof. intros H. rewrite url_roundtrip by (apply utf8_bytes_ok, H). f_equal. apply utf8_lossy_valid, utf8_valid_iff, H. Qed.
Lemma url_encode_inj s s' : bytes_ok s -> bytes_ok s' -> url_encode s = url_encode s' -> s = s'.
Proof.
  intros H H' E. apply url_encode_spec in E; [|exact H]. pose proof (proj1 (url_encode_spec s' _ H') eq_refl) as E'.
  exact (escaped_inj _ _ _ E E').
Qed.

(** ** URL components *)
Lemma pct_decode_ok l s : pct_decode l = Ok s <-> pct_form l s.
Proof.
  split.
  - remember (length l) as n eqn:En. revert l s En. induction n as [n IH] using lt_wf_ind. intros l s En H.
    destruct l as [|b l]; [injection H as <-; constructor|]. cbn [pct_decode] in H. cbn [length] in En.
    destruct (b =? 37) eqn:E.
    + apply N.eqb_eq in E. subst b. destruct l as [|a [|c l]]; try discriminate.
      destruct (convert_hex a) as [t|] eqn:Ea; [|discriminate]. destruct (convert_hex c) as [u|] eqn:Ec; [|discriminate].
      apply bind_ok in H as (r & H & K). injection K as <-. replace (t * 16 + u) with (16 * t + u) by lia.
      constructor; [apply hexv_spec, Ea|apply hexv_spec, Ec|]. apply (IH (length l)); [cbn [length] in En; lia|reflexivity|exact H].
    + apply bind_ok in H as (r & H & K). injection K as <-. constructor; [lia|].
      apply (IH (length l)); [lia|reflexivity|exact H].
  - induction 1 as [|b l s Hb H IH|h x k y l s H1 H2 H IH]; [reflexivity| |].
    + cbn [pct_decode]. destruct (b =? 37) eqn:E; [lia|]. rewrite IH. reflexivity.
    + cbn [pct_decode]. change (37 =? 37) with true. cbv iota. apply hexv_spec in H1, H2. rewrite H1, H2, IH. cbn [bind].
      do 2 f_equal. lia.
Qed.
Lemma pct_decode_returns l : returns (pct_decode l).
Proof.
  remember (length l) as n eqn:En. revert l En. induction n as [n IH] using lt_wf_ind. intros l En.
  destruct l as [|b l]; [split; discriminate|]. cbn [pct_decode]. cbn [length] in En.
  assert (G : forall l' x, (length l' < n)%nat -> returns (r <- pct_decode l' ;; Ok (x :: r))).
  { intros l' x Hl. destruct (IH (length l') Hl l' eq_refl) as [R1 R2]. destruct (pct_decode l'); try contradiction; split; discriminate. }
  destruct (b =? 37).
  - destruct l as [|a [|c l]]; try (split; discriminate). destruct (convert_hex a); [|split; discriminate].
    destruct (convert_hex c); [|split; discriminate]. apply G. cbn [length] in En. lia.
  - apply G. lia.
Qed.
Lemma parse_url_token_ok l s : parse_url_token l = Ok s <-> pct_form l s /\ is_utf8 s.
Proof.
  unfold parse_url_token. split.
  - intros H. apply bind_ok in H as (r & H & K). destruct (utf8_valid r) eqn:E; [|discriminate]. injection K as <-.
    split; [apply pct_decode_ok, H|apply utf8_valid_iff, E].
  - intros [H1 H2]. apply pct_decode_ok in H1. rewrite H1. cbn [bind]. apply utf8_valid_iff in H2. rewrite H2. reflexivity.
Qed.
Lemma parse_url_token_returns l : returns (parse_url_token l).
Proof.
  unfold parse_url_token. destruct (pct_decode_returns l) as [R1 R2]. destruct (pct_decode l) as [a| | |]; try contradiction; try (split; discriminate).
  cbn [bind]. destruct (utf8_valid a); split; discriminate.
Qed.
Lemma parse_url_token_encoded s : is_utf8 s -> parse_url_token (url_encode s) = Ok s.
Proof.
  intros H. apply parse_url_token_ok. split; [|exact H].
  rewrite url_encode_raw by (apply utf8_bytes_ok, H). apply escaped_pct, raw_encode_escaped, utf8_bytes_ok, H.
Qed.

(** ** The scanning loop *)
Lemma part_step hd a b c d e f fs v x : part_char x ->
  url_step hd (mkUst a b c d e f fs v) x = Ok (mkUst a b c d e f fs (v ++ [x])).
Proof.
  intros [H1 H2]. cbn in H2. unfold url_step. apply token_vchar in H1.
  destruct (x =? 58) eqn:E1; [lia|]. destruct (x =? 64) eqn:E2; [lia|]. destruct (x =? 47) eqn:E3; [lia|].
  destruct (x =? 63) eqn:E4; [lia|]. rewrite H1. reflexivity.
Qed.
Lemma loop_app {hd} (P : N -> Prop) a b c d e f fs :
  (forall v x, P x -> url_step hd (mkUst a b c d e f fs v) x = Ok (mkUst a b c d e f fs (v ++ [x]))) ->
  forall l, Forall P l -> forall v r,
  url_loop hd (mkUst a b c d e f fs v) (l ++ r) = url_loop hd (mkUst a b c d e f fs (v ++ l)) r.
Proof.
  intros S l H. induction H as [|x l Hx _ IH]; intros v r; [rewrite app_nil_r; reflexivity|].
  cbn [app url_loop]. rewrite S by exact Hx. cbn [bind]. rewrite IH. rewrite <- app_assoc. reflexivity.
Qed.
Lemma loop_part hd a b c d e f fs v l r : Forall part_char l ->
  url_loop hd (mkUst a b c d e f fs v) (l ++ r) = url_loop hd (mkUst a b c d e f fs (v ++ l)) r.
Proof. intros H. apply (loop_app part_char); [|exact H]. intros v' x Hx. apply part_step, Hx. Qed.
Lemma path_step hd a b c d e f v x : path_char x ->
  url_step hd (mkUst a b c d e f true v) x = Ok (mkUst a b c d e f true (v ++ [x])).
Proof.
  intros (H1 & H2 & H3). unfold url_step. apply token_vchar in H1. cbn [negb].
  destruct (x =? 58) eqn:E1; [reflexivity|]. destruct (x =? 64) eqn:E2; [lia|]. destruct (x =? 47) eqn:E3; [reflexivity|].
  destruct (x =? 63) eqn:E4; [lia|]. rewrite H1. reflexivity.
Qed.
Lemma loop_path hd a b c d e f v l r : Forall path_char l ->
  url_loop hd (mkUst a b c d e f true v) (l ++ r) = url_loop hd (mkUst a b c d e f true (v ++ l)) r.
Proof. intros H. apply (loop_app path_char); [|exact H]. intros v' x Hx. apply path_step, Hx. Qed.
Lemma query_step hd a b c d e f v x : query_char x ->
  url_step hd (mkUst a b c d (Some e) f true v) x = Ok (mkUst a b c d (Some e) f true (v ++ [x])).
Proof.
  intros (H1 & H2). unfold url_step. apply token_vchar in H1. cbn [negb is_some].
  destruct (x =? 58) eqn:E1; [reflexivity|]. destruct (x =? 64) eqn:E2; [lia|]. destruct (x =? 47) eqn:E3; [reflexivity|].
  destruct (x =? 63) eqn:E4; [reflexivity|]. rewrite H1. reflexivity.
Qed.
Lemma loop_query hd a b c d e f v l r : Forall query_char l ->
  url_loop hd (mkUst a b c d (Some e) f true v) (l ++ r) = url_loop hd (mkUst a b c d (Some e) f true (v ++ l)) r.
Proof. intros H. apply (loop_app query_char); [|exact H]. intros v' x Hx. apply query_step, Hx. Qed.

(** The tail: path and query, from a state with the first slash not yet read
    (in front of which the host or the port is pending). *)
Definition path_text_ok (pa q : option bytes) : Prop :=
  match pa with
  | Some p => exists p', p = 47 :: p' /\ Forall path_char p'
  | None => q = None
  end /\ match q with Some s => Forall query_char s | None => True end.
Lemma loop_tail hd a b c d v p' q : Forall path_char p' -> match q with Some s => Forall query_char s | None => True end ->
  url_loop hd (mkUst a b (Some c) d None None true (v ++ [47])) (p' ++ opt_text [63] q)
  = Ok (mkUst a b (Some c) d (Some (v ++ 47 :: p')) q true []).
Proof.
  intros Hp Hq. rewrite loop_path by exact Hp. rewrite <- app_assoc. cbn [app]. destruct q as [s|]; cbn [opt_text app].
  - cbn [url_loop]. cbn [url_step negb is_some].
    change (63 =? 58) with false. change (63 =? 64) with false. change (63 =? 47) with false. change (63 =? 63) with true. cbv iota.
    cbn [bind]. pose proof (loop_query hd a b (Some c) d (v ++ 47 :: p') None [] s [] Hq) as L. rewrite app_nil_r in L. rewrite L. reflexivity.
  - reflexivity.
Qed.
Lemma loop_host a b h p pa q : Forall part_char h -> match p with Some t => Forall part_char t | None => True end -> path_text_ok pa q ->
  url_loop true (mkUst a b None None None None false []) (h ++ opt_text [58] p ++ opt_text [] pa ++ opt_text [63] q)
  = Ok (mkUst a b (Some h) p pa q (is_some pa) []).
Proof.
  intros Hh Hp [Hpa Hq]. rewrite loop_part by exact Hh. cbn [app]. destruct p as [t|]; cbn [opt_text app].
  - cbn [url_loop url_step negb is_some]. change (58 =? 58) with true. cbv iota. cbn [bind].
    rewrite loop_part by exact Hp. cbn [app]. destruct pa as [pp|]; cbn [opt_text].
    + destruct Hpa as (p' & -> & Hp'). cbn [app url_loop url_step negb is_some].
      change (47 =? 58) with false. change (47 =? 64) with false. change (47 =? 47) with true. cbv iota. cbn [bind].
      apply (loop_tail true a b h (Some t) [] p' q Hp' Hq).
    + subst q. reflexivity.
  - destruct pa as [pp|]; cbn [opt_text].
    + destruct Hpa as (p' & -> & Hp'). cbn [app url_loop url_step negb is_some].
      change (47 =? 58) with false. change (47 =? 64) with false. change (47 =? 47) with true. cbv iota. cbn [bind].
      apply (loop_tail true a b h None [] p' q Hp' Hq).
    + subst q. reflexivity.
Qed.
Lemma loop_url (ui : option (bytes * bytes)) (h : bytes) (p pa q : option bytes) :
  match ui with Some (a, b) => Forall part_char a /\ Forall part_char b | None => True end ->
  Forall part_char h -> match p with Some t => Forall part_char t | None => True end -> path_text_ok pa q ->
  url_loop true (ust0 false)
    ((match ui with Some (a, b) => a ++ [58] ++ b ++ [64] | None => [] end) ++ h ++ opt_text [58] p ++ opt_text [] pa ++ opt_text [63] q)
  = Ok (mkUst (option_map fst ui) (option_map snd ui) (Some h) p pa q (is_some pa) []).
Proof.
  intros Hu Hh Hp Hpq. unfold ust0. destruct ui as [[a b]|]; [|apply loop_host; assumption].
  destruct Hu as [Ha Hb]. rewrite <- !app_assoc. rewrite loop_part by exact Ha. cbn [app url_loop url_step negb is_some].
  change (58 =? 58) with true. cbv iota. cbn [bind]. rewrite loop_part by exact Hb. cbn [app url_loop url_step negb is_some].
  change (64 =? 58) with false. change (64 =? 64) with true. cbv iota. cbn [bind].
  apply loop_host; assumption.
Qed.

(** ** Schemes *)
Definition scheme_charb (b : N) : bool :=
  ((65 <=? b) && (b <=? 90)) || ((97 <=? b) && (b <=? 122)) || ((48 <=? b) && (b <=? 57)) || existsb (N.eqb b) (str "+-.").
Lemma scheme_token_spec b : scheme_char b -> is_scheme_token b = true.
Proof.
  intros H. assert (B : b < 256).
  { unfold scheme_char, alpha, upper, lower, digit in H. destruct H as [[H|H]|[H|H]]; try lia. cbn in H. repeat destruct H as [<-|H]; lia. }
  assert (G : implb (scheme_charb b) (is_scheme_token b) = true).
  { revert b B H. intros b B _. revert b B. apply byte_sweep. vm_compute. reflexivity. }
  assert (S : scheme_charb b = true).
  { unfold scheme_charb. rewrite !orb_true_iff, existsb_exists. unfold scheme_char, alpha, upper, lower, digit in H.
    destruct H as [[H|H]|[H|H]]; [left; left; left; lia|left; left; right; lia|left; right; lia|].
    right. exists b. split; [exact H|apply N.eqb_refl]. }
  rewrite S in G. exact G.
Qed.
Lemma legal_scheme_parse s r : legal_scheme s ->
  parse_scheme (scheme_str s ++ 58 :: r) = Ok (s, 58 :: r) /\
  exists b t, scheme_str s = b :: t /\ is_alpha b = true.
Proof.
  intros H. unfold parse_scheme, parse_scheme_token.
  assert (G : forall b t, is_alpha b = true -> forallb is_scheme_token (b :: t) = true -> (length (b :: t) <= 64)%nat -> scheme_of_str (b :: t) = Ok s ->
    (' (t0, l1) <- parse_token_by is_scheme_token (EHttp HeaderValueErr) false ((b :: t) ++ 58 :: r) ;;
     (if 64 <? blen t0 then Err (EHttp SchemeTooLong) else s0 <- scheme_of_str t0 ;; Ok (s0, l1))) = Ok (s, 58 :: r)).
  { intros b t Ha Hf Hl Hs. rewrite parse_token_by_app; [|discriminate|exact Hf|reflexivity]. cbn [bind].
    destruct (64 <? blen (b :: t)) eqn:L; [unfold blen in L; lia|]. rewrite Hs. reflexivity. }
  destruct H as [| | | | |b t Ha Ht Hl Hk]; (split; [|eexists _, _; split; [reflexivity|]; try reflexivity]).
  1-5: apply G; vm_compute; try reflexivity; repeat constructor.
  - apply G.
    + unfold alpha, upper, lower in Ha. unfold is_alpha. destruct ((65 <=? b) && (b <=? 90)) eqn:E1; [reflexivity|].
      destruct ((97 <=? b) && (b <=? 122)) eqn:E2; [reflexivity|lia].
    + cbn [forallb]. rewrite scheme_token_spec by (left; exact Ha). cbn [andb]. apply forallb_forall. intros x Hx.
      apply scheme_token_spec. rewrite Forall_forall in Ht. auto.
    + cbn [length]. lia.
    + unfold scheme_of_str. destruct (64 <? blen (b :: t)) eqn:L; [unfold blen in L; cbn [length] in L; lia|].
      cbn in Hk.
      repeat match goal with |- (if beq ?x ?y then _ else _) = _ => 
        destruct (beq x y) eqn:?E; [match goal with K : beq x y = true |- _ => apply beq_eq in K; exfalso; apply Hk; rewrite K; vm_compute; tauto end|] end.
      reflexivity.
  - unfold alpha, upper, lower in Ha. unfold is_alpha. destruct ((65 <=? b) && (b <=? 90)) eqn:E1; [reflexivity|].
    destruct ((97 <=? b) && (b <=? 122)) eqn:E2; [reflexivity|lia].
Qed.

(** ** Whole URLs *)
Lemma url_parse_text s (ui : option (bytes * bytes)) (h : bytes) (p pa q : option bytes) :
  legal_scheme s ->
  match ui with Some (a, b) => Forall part_char a /\ Forall part_char b | None => True end ->
  Forall part_char h -> match p with Some t => Forall part_char t | None => True end -> path_text_ok pa q ->
  url_parse (url_text (scheme_str s) ui h p pa q) =
  url_build s (mkUst (option_map fst ui) (option_map snd ui) (Some h) p pa q (is_some pa) []).
Proof.
  intros Hs Hu Hh Hp Hpq.
  set (rest := (match ui with Some (a, b) => a ++ [58] ++ b ++ [64] | None => [] end) ++ h ++ opt_text [58] p ++ opt_text [] pa ++ opt_text [63] q).
  change (url_text (scheme_str s) ui h p pa q) with (scheme_str s ++ 58 :: 47 :: 47 :: rest).
  destruct (legal_scheme_parse s (47 :: 47 :: rest) Hs) as [E (b & t & Eb & Ha)].
  unfold url_parse. rewrite E, Eb. cbn [app]. rewrite Ha. cbn [bind].
  unfold expect, next. cbn [bind]. change (58 =? 58) with true. change (47 =? 47) with true. cbv iota. cbn [bind].
  pose proof (loop_url ui h p pa q Hu Hh Hp Hpq) as L. fold rest in L.
  change (47 =? 47) with true. cbv iota. cbn [bind]. change (47 =? 47) with true. cbv iota. cbn [bind]. rewrite L. reflexivity.
Qed.
Lemma raw_part s : is_utf8 s -> (forall b, In b s -> ~ In b (str ":@/?")) -> Forall part_char (url_encode s).
Proof.
  intros H1 H2. apply utf8_bytes_ok in H1. rewrite url_encode_raw by exact H1. pose proof (raw_encode_escaped s H1) as E.
  pose proof (escaped_ascii _ _ E) as A. clear H1. induction E as [|b s l Hs H IH|b h x k y s l Hs E H3 H4 H IH]; [constructor| |].
  - inversion A; subst. constructor; [split; [unfold vchar; lia|apply H2; left; reflexivity]|].
    apply IH; [intros c Hc; apply H2; right; exact Hc|assumption].
  - inversion A as [|? ? A1 A2]; subst. inversion A2 as [|? ? A3 A4]; subst. inversion A4 as [|? ? A5 A6]; subst.
    constructor; [split; [unfold vchar; lia|cbn; lia]|].
    constructor; [split; [unfold vchar; lia|apply upper_hexv, hexv_spec in H3; cbn; intros K; repeat destruct K as [<-|K]; try discriminate; contradiction]|].
    constructor; [split; [unfold vchar; lia|apply upper_hexv, hexv_spec in H4; cbn; intros K; repeat destruct K as [<-|K]; try discriminate; contradiction]|].
    apply IH; [intros c Hc; apply H2; right; exact Hc|exact A6].
Qed.
Lemma raw_in s b : is_utf8 s -> In b (url_encode s) -> In b (str "@?") -> In b s.
Proof.
  intros H1 Hb Hc. apply utf8_bytes_ok in H1. rewrite url_encode_raw in Hb by exact H1. pose proof (raw_encode_escaped s H1) as E.
  clear H1. induction E as [|c s l Hs H IH|c h x k y s l Hs E H3 H4 H IH]; [destruct Hb| |].
  - destruct Hb as [->|Hb]; [left; reflexivity|right; auto].
  - right. apply IH. apply upper_hexv, hexv_spec in H3, H4.
    destruct Hb as [<-|[<-|[<-|Hb]]]; [| | |exact Hb]; exfalso; cbn in Hc; repeat destruct Hc as [<-|Hc]; try discriminate; try contradiction; try lia.
Qed.
Lemma raw_vchar s : is_utf8 s -> Forall vchar (url_encode s).
Proof.
  intros H1. apply utf8_bytes_ok in H1. rewrite url_encode_raw by exact H1. pose proof (raw_encode_escaped s H1) as E.
  apply escaped_ascii in E. eapply Forall_impl; [|exact E]. unfold vchar. cbn. lia.
Qed.
Lemma raw_path p : legal_path p -> exists p', url_encode p = 47 :: p' /\ Forall path_char (47 :: p').
Proof.
  intros [H1 [H2 H3]]. destruct p as [|b p]; [discriminate|]. injection H1 as ->.
  exists (raw_encode p). assert (E : url_encode (47 :: p) = 47 :: raw_encode p).
  { rewrite url_encode_raw by (apply utf8_bytes_ok, H2). reflexivity. }
  split; [exact E|]. rewrite <- E. pose proof (raw_vchar _ H2) as V. rewrite Forall_forall in *. intros c Hc. split; [auto|].
  split; intros ->; apply (raw_in _ _ H2) in Hc; try (cbn; tauto); apply H3 in Hc; apply Hc; cbn; tauto.
Qed.
Lemma raw_query s : free_of (str "@") s -> Forall query_char (url_encode s).
Proof.
  intros [H2 H3]. pose proof (raw_vchar _ H2) as V. rewrite Forall_forall in *. intros c Hc. split; [auto|].
  intros ->. apply (raw_in _ _ H2) in Hc; [|cbn; tauto]. apply H3 in Hc. apply Hc. cbn. tauto.
Qed.
Lemma host_part h : Forall host_char h -> Forall part_char h.
Proof. apply Forall_impl. intros b [H _]. exact H. Qed.
Lemma host_token h : Forall host_char h -> parse_url_token h = Ok h.
Proof.
  intros H. apply parse_url_token_ok. split.
  - apply pct_form_plain. intros K. rewrite Forall_forall in H. apply H in K. destruct K as [_ K]. congruence.
  - apply utf8_valid_iff, utf8_valid_ascii. eapply Forall_impl; [|exact H]. cbn. intros b [[K _] _]. unfold vchar in K. lia.
Qed.
Lemma digits_part t : Forall digit t -> Forall host_char t.
Proof. apply Forall_impl. unfold digit. intros b H. split; [split; [unfold vchar; lia|cbn; lia]|lia]. Qed.
Lemma dec_digits n : Forall digit (dec_print n).
Proof.
  apply Forall_forall. intros b Hb. pose proof (proj1 (forallb_forall _ _) (dec_print_digits n) b Hb) as K. cbn in K. unfold dec_digit in K. unfold digit. lia.
Qed.
Lemma port_suffix_text s p : legal_scheme s ->
  exists o, (forall u, u_scheme u = s -> u_port u = Some p -> port_suffix u = opt_text [58] o) /\
    ((o = None /\ p = default_port s) \/ o = Some (dec_print p)).
Proof.
  intros Hs. unfold port_suffix.
  destruct ((scheme_eqb s ScHttp && (p =? 80)) || (scheme_eqb s ScHttps && (p =? 443))) eqn:E.
  - exists None. split.
    + intros u -> ->. destruct (scheme_eqb s ScNone) eqn:N; [reflexivity|]. 
      destruct (scheme_eqb s ScHttp && (p =? 80)); [reflexivity|]. cbn [orb] in E. rewrite E. reflexivity.
    + left. split; [reflexivity|]. destruct Hs; cbn in E; cbn; lia.
  - exists (Some (dec_print p)). split; [|right; reflexivity]. intros u -> ->.
    assert (N : scheme_eqb s ScNone = false) by (destruct Hs; reflexivity). rewrite N.
    apply orb_false_iff in E as [E1 E2]. rewrite E1, E2. reflexivity.
Qed.
Lemma url_print_parse u : legal_url u -> url_parse (url_print u) = Ok u.
Proof.
  intros (Hs & (d & Ed & Hd) & (p & Ep & Hp) & Hu & Hpa & Hq). destruct u as [s pa us pw dom po q]. cbn [u_scheme u_domain u_port u_user u_pass u_path u_query] in *.
  subst dom po. destruct (port_suffix_text s p Hs) as (o & E1 & E2).
  assert (O : match o with Some t => Forall host_char t | None => True end).
  { destruct E2 as [[-> _]| ->]; [exact I|apply digits_part, dec_digits]. }
  assert (N : scheme_eqb s ScNone = false) by (destruct Hs; reflexivity).
  destruct (raw_path pa Hpa) as (p' & Epa & Vpa).
  assert (PQ : path_text_ok (Some (url_encode pa)) (option_map url_encode q)).
  { split; [exists p'; split; [exact Epa|inversion Vpa; assumption]|].
    destruct Hq as [->|(t & -> & Hq)]; [exact I|]. apply raw_query, Hq. }
  destruct Hpa as [_ [Hpa _]].
  assert (Q : decode_opt (option_map url_encode q) = Ok q).
  { destruct Hq as [->|(t & -> & Hq & _)]; [reflexivity|]. cbn. rewrite parse_url_token_encoded by exact Hq. reflexivity. }
  assert (PO : exists x, decode_opt o = Ok x /\ match x with None => Ok None
          | Some t => match parse_uint 65536 t with Some n => Ok (Some n) | None => Err (EUrl UrlInvalid) end end = Ok (match o with None => None | Some _ => Some p end)).
  { destruct E2 as [[-> _]| ->]; [exists None; split; reflexivity|]. exists (Some (dec_print p)). split.
    - cbn. rewrite host_token by exact O. reflexivity.
    - rewrite parse_uint_print by exact Hp. reflexivity. }
  destruct PO as (x & PO1 & PO2).
  assert (PP : (match (match o with None => None | Some _ => Some p end) with Some n => Some n | None => Some (default_port s) end) = Some p).
  { destruct E2 as [[-> ->]| ->]; reflexivity. }
  set (ui := match us, pw with Some a, Some b => Some (url_encode a, url_encode b) | _, _ => None end : option (bytes * bytes)).
  assert (T : url_print (mkUrl s pa us pw (Some d) (Some p) q) =
    url_text (scheme_str s) ui d o (Some (url_encode pa)) (option_map url_encode q)).
  { unfold url_print, url_text. cbn [u_scheme u_domain u_port u_user u_pass u_path u_query opt_bytes]. rewrite N.
    rewrite E1 by reflexivity. rewrite <- app_assoc. f_equal. f_equal. f_equal.
    - unfold ui. destruct Hu as [[-> ->]|(a & b & -> & -> & _)]; reflexivity.
    - f_equal. f_equal. f_equal. destruct q; reflexivity. }
  rewrite T. rewrite url_parse_text; [|exact Hs| |apply host_part, Hd| |exact PQ].
  - unfold url_build. cbn [s_user s_pass s_domain s_port s_path s_query].
    assert (U : decode_opt (option_map fst ui) = Ok us /\ decode_opt (option_map snd ui) = Ok pw).
    { unfold ui. destruct Hu as [[-> ->]|(a & b & -> & -> & [Ha _] & [Hb _])]; [split; reflexivity|]. cbn.
      rewrite !parse_url_token_encoded by assumption. split; reflexivity. }
    destruct U as [U1 U2]. rewrite U1, U2. cbn [bind decode_opt]. rewrite host_token by exact Hd. cbn [bind].
    rewrite PO1. cbn [bind]. rewrite PO2. cbn [bind]. rewrite parse_url_token_encoded by exact Hpa. cbn [bind].
    rewrite Q. cbn [bind]. rewrite PP. reflexivity.
  - unfold ui. destruct Hu as [[-> ->]|(a & b & -> & -> & [Ha1 Ha2] & [Hb1 Hb2])]; [exact I|].
    split; apply raw_part; assumption.
  - destruct o; [apply host_part, O|exact I].
Qed.
Lemma url_print_parse_origin u : legal_origin u -> url_parse (url_print u) = Ok u.
Proof.
  destruct u as [s pa us pw dom po q]. intros (E1 & E2 & E3 & E4 & E5 & Hpa & Hq). cbn [u_scheme u_domain u_port u_user u_pass u_path u_query] in *.
  subst. destruct (raw_path pa Hpa) as (p' & Epa & Vpa).
  assert (QV : match option_map url_encode q with Some s => Forall query_char s | None => True end).
  { destruct Hq as [->|(t & -> & Hq)]; [exact I|]. apply raw_query, Hq. }
  assert (Q : decode_opt (option_map url_encode q) = Ok q).
  { destruct Hq as [->|(t & -> & Hq & _)]; [reflexivity|]. cbn. rewrite parse_url_token_encoded by exact Hq. reflexivity. }
  assert (T : url_print (mkUrl ScNone pa None None None (Some 0) q) = (47 :: p') ++ opt_text [63] (option_map url_encode q)).
  { unfold url_print. cbn [u_scheme u_domain u_port u_user u_pass u_path u_query opt_bytes scheme_eqb is_some orb app].
    change (port_suffix (mkUrl ScNone pa None None None (Some 0) q)) with (@nil N). cbn [app]. rewrite Epa. cbn [app]. do 2 f_equal.
    destruct q; reflexivity. }
  rewrite T. unfold url_parse. cbn [app]. change (is_alpha 47) with false. change (47 =? 47) with true. cbv iota.
  change (47 :: p' ++ opt_text [63] (option_map url_encode q)) with ((47 :: p') ++ opt_text [63] (option_map url_encode q)).
  assert (L : url_loop false (ust0 true) ((47 :: p') ++ opt_text [63] (option_map url_encode q)) =
    Ok (mkUst None None None None (Some (47 :: p')) (option_map url_encode q) true [])).
  { unfold ust0. rewrite loop_path by exact Vpa. cbn [app]. destruct (option_map url_encode q) as [t|]; cbn [opt_text app]; [|reflexivity].
    cbn [url_loop url_step negb is_some].
    change (63 =? 58) with false. change (63 =? 64) with false. change (63 =? 47) with false. change (63 =? 63) with true. cbv iota.
    cbn [bind]. pose proof (loop_query false None None None None (47 :: p') None [] t [] QV) as L. rewrite app_nil_r in L. rewrite L. reflexivity. }
  rewrite L. cbn [bind]. unfold url_build. cbn [s_user s_pass s_domain s_port s_path s_query decode_opt bind].
  rewrite <- Epa. rewrite parse_url_token_encoded by apply Hpa. cbn [bind]. rewrite Q. reflexivity.
Qed.
