(** More lemmas for C68-C80: merging, predicates, integers, reasons, text forms, copies. *)
From Coq Require Import Ascii String NArith ZArith Lia Bool List ZifyBool ZifyNat ZifyN.
From Verif Require Import Base P_Base S_Utf8 M_Std P_Std M_Helper M_Header M_Url M_Http1 M_Frame M_Ext M_Build S_Http1 S_Http1Api S_Hex S_Map S_Url S_Frame S_Ext S_Build
  P_Helper P_Header P_Http1 P_Msg P_Chunk P_Map P_Url P_UrlForm P_Settings P_Ext P_Build P_Build2.
Import ListNotations.
Local Open Scope N_scope.
Ltac Zify.zify_post_hook ::= Z.div_mod_to_equations.

(** ** Merging *)
Lemma scheme_eqb_eq a b : scheme_eqb a b = true <-> a = b.
Proof.
  destruct a, b; cbn [scheme_eqb]; split; intros H; try discriminate; try reflexivity.
  - apply beq_eq in H. congruence.
  - injection H as <-. apply beq_refl.
Qed.
Lemma merge_scheme_or a b : u_scheme (url_merge a b) = if scheme_eqb (u_scheme b) ScNone then u_scheme a else u_scheme b.
Proof.
  unfold url_merge. cbn [u_scheme]. destruct (scheme_eqb (u_scheme b) ScNone); cbn [negb andb]; [reflexivity|].
  destruct (scheme_eqb (u_scheme a) (u_scheme b)) eqn:E; cbn [negb]; [|reflexivity]. apply scheme_eqb_eq in E. exact E.
Qed.
Lemma merge_path_or a b : u_path (url_merge a b) = if beq (u_path b) default_path then u_path a else u_path b.
Proof.
  unfold url_merge. cbn [u_path]. destruct (beq (u_path b) default_path); cbn [negb andb]; [reflexivity|].
  destruct (beq (u_path a) (u_path b)) eqn:E; cbn [negb]; [|reflexivity]. apply beq_eq in E. exact E.
Qed.
Lemma merge_port_or a b : u_port (url_merge a b) = match u_port b with Some p => if p =? 0 then u_port a else Some p | None => u_port a end.
Proof. reflexivity. Qed.
Lemma merge_opt_over {A} (a b : option A) : overrides (sets b) a b (merge_opt a b).
Proof. unfold overrides, sets, merge_opt. destruct b; split; intros H; try reflexivity; [exfalso; apply H; discriminate|exfalso; apply H; reflexivity]. Qed.
Lemma merge_parts a b :
  overrides (sets_scheme b) (u_scheme a) (u_scheme b) (u_scheme (url_merge a b)) /\
  overrides (sets (u_user b)) (u_user a) (u_user b) (u_user (url_merge a b)) /\
  overrides (sets (u_pass b)) (u_pass a) (u_pass b) (u_pass (url_merge a b)) /\
  overrides (sets (u_domain b)) (u_domain a) (u_domain b) (u_domain (url_merge a b)) /\
  overrides (sets_port b) (u_port a) (u_port b) (u_port (url_merge a b)) /\
  overrides (sets_path b) (u_path a) (u_path b) (u_path (url_merge a b)) /\
  overrides (sets (u_query b)) (u_query a) (u_query b) (u_query (url_merge a b)).
Proof.
  split; [|split; [apply merge_opt_over|split; [apply merge_opt_over|split; [apply merge_opt_over|split; [|split; [|apply merge_opt_over]]]]]].
  - rewrite merge_scheme_or. unfold overrides, sets_scheme. destruct (scheme_eqb (u_scheme b) ScNone) eqn:E.
    + apply scheme_eqb_eq in E. split; [congruence|reflexivity].
    + split; [reflexivity|]. intros H. exfalso. apply H. intros K. rewrite K in E. discriminate.
  - rewrite merge_port_or. unfold overrides, sets_port. destruct (u_port b) as [p|].
    + destruct (N.eqb_spec p 0) as [->|Z].
      * split; [|reflexivity]. intros (p & K & K'). congruence.
      * split; [reflexivity|]. intros H. exfalso. apply H. eauto.
    + split; [|reflexivity]. intros (p & K & _). discriminate.
  - rewrite merge_path_or. unfold overrides, sets_path, default_path. destruct (beq (u_path b) (str "/")) eqn:E.
    + apply beq_eq in E. split; [congruence|reflexivity].
    + apply beq_neq in E. split; [reflexivity|]. intros H. exfalso. exact (H E).
Qed.
Lemma url_ext a b : u_scheme a = u_scheme b -> u_user a = u_user b -> u_pass a = u_pass b -> u_domain a = u_domain b ->
  u_port a = u_port b -> u_path a = u_path b -> u_query a = u_query b -> a = b.
Proof. destruct a, b. cbn. intros. subst. reflexivity. Qed.
Lemma merge_right_new a : url_merge a url_new = a.
Proof. apply url_ext; try reflexivity. Qed.
Lemma merge_left_new b : u_port b <> Some 0 -> url_merge url_new b = b.
Proof.
  intros H. apply url_ext; try (cbn [url_merge url_new u_user u_pass u_domain u_query merge_opt]).
  - rewrite merge_scheme_or. destruct (scheme_eqb (u_scheme b) ScNone) eqn:E; [|reflexivity]. apply scheme_eqb_eq in E. rewrite E. reflexivity.
  - destruct (u_user b); reflexivity.
  - destruct (u_pass b); reflexivity.
  - destruct (u_domain b); reflexivity.
  - rewrite merge_port_or. destruct (u_port b) as [p|]; [|reflexivity]. destruct (N.eqb_spec p 0); [congruence|reflexivity].
  - rewrite merge_path_or. destruct (beq (u_path b) default_path) eqn:E; [|reflexivity]. apply beq_eq in E. rewrite E. reflexivity.
  - destruct (u_query b); reflexivity.
Qed.
Lemma merge_idem a : url_merge a a = a.
Proof.
  apply url_ext; try (cbn [url_merge u_user u_pass u_domain u_query merge_opt]).
  - rewrite merge_scheme_or. destruct (scheme_eqb _ _); reflexivity.
  - destruct (u_user a); reflexivity.
  - destruct (u_pass a); reflexivity.
  - destruct (u_domain a); reflexivity.
  - rewrite merge_port_or. destruct (u_port a) as [p|]; [|reflexivity]. destruct (p =? 0); reflexivity.
  - rewrite merge_path_or. destruct (beq _ _); reflexivity.
  - destruct (u_query a); reflexivity.
Qed.
Lemma merge_opt_assoc {A} (a b c : option A) : merge_opt (merge_opt a b) c = merge_opt a (merge_opt b c).
Proof. destruct c; reflexivity. Qed.
Lemma merge_assoc a b c : url_merge (url_merge a b) c = url_merge a (url_merge b c).
Proof.
  apply url_ext; try exact (merge_opt_assoc _ _ _).
  - rewrite !merge_scheme_or. destruct (scheme_eqb (u_scheme c) ScNone) eqn:E; [reflexivity|]. rewrite E. reflexivity.
  - rewrite !merge_port_or. destruct (u_port c) as [p|]; [|reflexivity]. destruct (N.eqb_spec p 0) as [->|Z]; [reflexivity|].
    destruct (N.eqb_spec p 0); [contradiction|reflexivity].
  - rewrite !merge_path_or. destruct (beq (u_path c) default_path) eqn:E; [reflexivity|]. rewrite E. reflexivity.
Qed.
(** A reference "/path" or "/path?query" leaves the rest alone. *)
Lemma merge_reference a l b : bytes_ok l -> hd_error l = Some 47 -> url_parse l = Ok b ->
  url_merge a b = mkUrl (u_scheme a) (if beq (u_path b) (str "/") then u_path a else u_path b) (u_user a) (u_pass a) (u_domain a) (u_port a)
                        (match u_query b with Some q => Some q | None => u_query a end).
Proof.
  intros B H E. apply url_exact in E; [|exact B|auto]. inversion E as [s h d pp n pa p qq q LS|pa p qq q HP NE HQ]; subst.
  - exfalso. destruct LS as [| | | | |x s A _ _ _]; cbn in H; try discriminate. injection H as ->. destruct A as [K|K]; unfold upper, lower in K; lia.
  - apply url_ext; try reflexivity.
    + rewrite merge_path_or. reflexivity.
    + destruct q; reflexivity.
Qed.

(** ** Display of a URL without a port *)
Lemma url_print_parse_noport u n : legal_url (with_port u n) -> u_port u = None -> port_of u n ->
  url_parse (url_print u) = Ok (with_port u n).
Proof.
  intros (Hs & (d & Ed & Hd) & _ & Hu & Hpa & Hq) NP PO. apply port_of_default in PO; [|exact NP]. subst n.
  destruct u as [s pa us pw dom po q]. unfold with_port in *. cbn [u_scheme u_domain u_port u_user u_pass u_path u_query] in *.
  subst dom po.
  assert (N : scheme_eqb s ScNone = false) by (destruct Hs; reflexivity).
  destruct (P_Url.raw_path pa Hpa) as (p' & Epa & Vpa).
  assert (PQ : path_text_ok (Some (url_encode pa)) (option_map url_encode q)).
  { split; [exists p'; split; [exact Epa|inversion Vpa; assumption]|].
    destruct Hq as [->|(t & -> & Hq)]; [exact I|]. apply P_Url.raw_query, Hq. }
  destruct Hpa as [_ [Hpa _]].
  assert (Q : decode_opt (option_map url_encode q) = Ok q).
  { destruct Hq as [->|(t & -> & Hq & _)]; [reflexivity|]. cbn. rewrite parse_url_token_encoded by exact Hq. reflexivity. }
  set (ui := match us, pw with Some a, Some b => Some (url_encode a, url_encode b) | _, _ => None end : option (bytes * bytes)).
  assert (T : url_print (mkUrl s pa us pw (Some d) None q) =
    url_text (scheme_str s) ui d None (Some (url_encode pa)) (option_map url_encode q)).
  { unfold url_print, url_text. cbn [u_scheme u_domain u_port u_user u_pass u_path u_query opt_bytes]. rewrite N.
    unfold port_suffix. cbn [u_scheme u_port]. rewrite N. rewrite <- app_assoc. f_equal. f_equal. f_equal.
    - unfold ui. destruct Hu as [[-> ->]|(a & b & -> & -> & _)]; reflexivity.
    - f_equal. cbn [opt_text app]. f_equal. destruct q; reflexivity. }
  rewrite T. rewrite url_parse_text; [|exact Hs| |apply host_part, Hd|exact I|exact PQ].
  - unfold url_build. cbn [s_user s_pass s_domain s_port s_path s_query].
    assert (U : decode_opt (option_map fst ui) = Ok us /\ decode_opt (option_map snd ui) = Ok pw).
    { unfold ui. destruct Hu as [[-> ->]|(a & b & -> & -> & [Ha _] & [Hb _])]; [split; reflexivity|]. cbn.
      rewrite !parse_url_token_encoded by assumption. split; reflexivity. }
    destruct U as [U1 U2]. rewrite U1, U2. cbn [bind decode_opt]. rewrite host_token by exact Hd. cbn [bind].
    rewrite parse_url_token_encoded by exact Hpa. cbn [bind]. rewrite Q. reflexivity.
  - unfold ui. destruct Hu as [[-> ->]|(a & b & -> & -> & [Ha1 Ha2] & [Hb1 Hb2])]; [exact I|].
    split; apply P_Url.raw_part; assumption.
Qed.
Lemma url_print_parse_port u n : legal_url (with_port u n) -> port_of u n -> url_parse (url_print u) = Ok (with_port u n).
Proof.
  intros L P. destruct (u_port u) as [p|] eqn:E.
  - assert (K : p = n) by (inversion P; congruence). subst p. rewrite <- (url_print_parse _ L). destruct u. unfold with_port. cbn in *. subst. reflexivity.
  - apply url_print_parse_noport; assumption.
Qed.

(** ** Header predicates *)
Lemma is_prefix_spec p l : is_prefix p l = true <-> exists r, l = p ++ r.
Proof.
  revert l. induction p as [|x p IH]; intros l; cbn [is_prefix app].
  - split; [eauto|reflexivity].
  - destruct l as [|y l]; [split; [discriminate|intros [r K]; discriminate]|].
    rewrite andb_true_iff, N.eqb_eq, IH. split.
    + intros [-> [r ->]]. eauto.
    + intros [r K]. injection K as -> ->. eauto.
Qed.
Lemma contains_bytes_spec v w : contains_bytes v w = true <-> substring w v.
Proof.
  unfold substring. induction v as [|b v IH]; cbn [contains_bytes].
  - rewrite orb_false_r, is_prefix_spec. split.
    + intros [r E]. exists [], r. exact E.
    + intros (a & r & E). destruct a; [eauto|discriminate].
  - rewrite orb_true_iff, IH, is_prefix_spec. split.
    + intros [[r E]|(a & r & E)]; [exists [], r; exact E|]. exists (b :: a), r. cbn [app]. rewrite <- E. reflexivity.
    + intros (a & r & E). destruct a as [|x a]; [left; eauto|]. right. injection E as _ E. eauto.
Qed.
Lemma hm_contains_word h n w : hm_is_contains h n w = true <-> exists v, hm_get h n = Some v /\ substring w v.
Proof.
  unfold hm_is_contains. destruct (hm_get h n) as [v|]; [|split; [discriminate|intros (v & K & _); discriminate]].
  rewrite contains_bytes_spec. split; [eauto|]. intros (v' & K & S). injection K as <-. exact S.
Qed.
Lemma hm_upgrade_spec h p : hm_get_upgrade h = Some p <->
  (exists v, hm_get h (str "connection") = Some v /\ substring (str "Upgrade") v) /\
  hm_get h (str "upgrade") = Some p /\ is_utf8 p.
Proof.
  rewrite <- hm_contains_word. unfold hm_get_upgrade, hm_is_contains. destruct (hm_get h (str "connection")) as [v|]; [|split; [discriminate|intros [K _]; discriminate]].
  destruct (contains_bytes v (str "Upgrade")); [|split; [discriminate|intros [K _]; discriminate]].
  destruct (hm_get h (str "upgrade")) as [u|]; [|split; [discriminate|intros (_ & K & _); discriminate]].
  unfold value_as_string. destruct (utf8_valid u) eqn:U.
  - split; [intros K; injection K as <-; split; [reflexivity|split; [reflexivity|apply utf8_valid_iff, U]]|].
    intros (_ & K & _). exact K.
  - split; [discriminate|]. intros (_ & K & W). injection K as <-. apply utf8_valid_iff in W. congruence.
Qed.
Lemma split_on_sub sep v : forall e, In e (split_on sep v) -> substring e v.
Proof.
  assert (G : forall v, match split_on sep v with p :: ps => (exists r, v = p ++ r) /\ Forall (fun e => substring e v) ps | [] => False end).
  { clear v. induction v as [|b v IH]; cbn [split_on].
    - split; [exists []; reflexivity|constructor].
    - destruct (split_on sep v) as [|p ps]; [contradiction|]. destruct IH as [(r & E) F].
      assert (F' : Forall (fun e => substring e (b :: v)) ps).
      { eapply Forall_impl; [|exact F]. intros e (x & y & K). exists (b :: x), y. cbn [app]. rewrite <- K. reflexivity. }
      destruct (b =? sep).
      + split; [exists (b :: v); reflexivity|]. constructor; [|exact F']. exists [b], r. rewrite E. reflexivity.
      + split; [exists r; rewrite E; reflexivity|exact F']. }
  specialize (G v). destruct (split_on sep v) as [|p ps]; [contradiction|]. destruct G as [(r & E) F].
  intros e [<-|H]; [exists [], r; exact E|]. rewrite Forall_forall in F. exact (F e H).
Qed.
Lemma strip_left_suffix l : exists a, l = a ++ strip_left l.
Proof.
  induction l as [|b l [a E]]; [exists []; reflexivity|]. cbn [strip_left]. destruct ((b =? 32) || (b =? 9)).
  - exists (b :: a). cbn [app]. f_equal. exact E.
  - exists []. reflexivity.
Qed.
Lemma strip_sub l : substring (strip l) l.
Proof.
  unfold strip. destruct (strip_left_suffix l) as [a E]. destruct (strip_left_suffix (rev (strip_left l))) as [c K].
  exists a, (rev c). rewrite E at 1. f_equal. rewrite <- rev_app_distr, <- K. symmetry. apply rev_involutive.
Qed.
Lemma substring_trans a b c : substring a b -> substring b c -> substring a c.
Proof. intros (x & y & ->) (u & v & ->). exists (u ++ x), (y ++ v). rewrite <- !app_assoc. reflexivity. Qed.
Lemma element_sub e v w : In e (split_on 44 v) -> strip e = w -> substring w v.
Proof. intros H <-. eapply substring_trans; [apply strip_sub|]. apply (split_on_sub 44), H. Qed.

(** ** Integers in values: the two representations *)
Lemma std_lax v z : std_signed v z -> hd_error v <> Some 43 -> lax_signed v z.
Proof.
  intros [w n (_ & D & ->)|w n (_ & D & ->)|w n (_ & D & ->)] H.
  - apply (ls_intro []); [constructor|exact D].
  - contradiction H. reflexivity.
  - apply (ls_intro [45]); [repeat constructor|exact D].
Qed.
Lemma lax_no_plus v z : lax_signed v z -> hd_error v <> Some 43.
Proof.
  intros [p ds H1 H2] K. destruct H1 as [|b p Hb _]; cbn in K.
  - destruct H2 as [|b ds Hb _]; [discriminate|]. injection K as ->. unfold digit in Hb. lia.
  - injection K as ->. lia.
Qed.
Lemma isize_agree v z z' : value_isize_stand v = Ok z -> value_isize v = Ok z' -> z = z'.
Proof.
  intros A B. apply isize_stand_exact in A as [A R]. pose proof B as B'. apply isize_exact in B' as [L _].
  pose proof (std_lax v z A (lax_no_plus v z' L)) as K.
  destruct (Z.eq_dec z (- 2 ^ 63)) as [->|N].
  - exfalso. assert (P : value_isize v = Panic). { apply isize_panic. exists v, (- 2 ^ 63)%Z, []. rewrite app_nil_r. split; [reflexivity|]. split; [exact K|]. vm_compute. split; discriminate. }
    congruence.
  - assert (E : value_isize v = Ok z) by (apply isize_exact; split; [exact K|lia]). congruence.
Qed.
Lemma isize_literal v z : value_isize_stand v = Ok z -> hd_error v <> Some 43 -> (- 2 ^ 63 < z)%Z -> value_isize v = Ok z.
Proof. intros A H N. apply isize_stand_exact in A as [A R]. apply isize_exact. split; [apply std_lax; assumption|lia]. Qed.
Lemma usize_agree v n n' : value_usize_stand v = Ok n -> value_usize v = Ok n' -> n = n'.
Proof.
  intros A B. apply usize_stand_exact in A as [[(_ & _ & ->)|(w & -> & _)] _]; apply usize_exact in B as (D & -> & _); [reflexivity|].
  inversion D as [|? ? K _]. unfold digit in K. lia.
Qed.
Lemma usize_literal v n : value_usize_stand v = Ok n -> hd_error v <> Some 43 -> value_usize v = Ok n.
Proof.
  intros A H. apply usize_stand_exact in A as [[(_ & D & ->)|(w & -> & _)] L]; [apply usize_exact; auto|]. contradiction H. reflexivity.
Qed.

(** ** Error codes *)
Lemma reason_known c s : In (c, s) error_codes -> reason_debug c = str s.
Proof. intros H. cbn in H. repeat destruct H as [H|H]; try (injection H as <- <-; reflexivity); contradiction. Qed.
Lemma unknown_code c : (forall s, ~ In (c, s) error_codes) -> 13 < c.
Proof.
  intros H. destruct (N.le_gt_cases c 13) as [L|L]; [|lia]. exfalso.
  assert (K : In (c, snd (nth (N.to_nat c) error_codes (0, ""%string))) error_codes); [|exact (H _ K)].
  assert (D : exists k, (k <= 13)%nat /\ c = N.of_nat k) by (exists (N.to_nat c); lia). destruct D as (k & D & ->). clear L H.
  do 14 (destruct k as [|k]; [vm_compute; tauto|]). lia.
Qed.
Lemma reason_over c : 13 < c -> reason_debug c = str "Reason(" ++ hex_print c ++ str ")".
Proof. intros L. unfold reason_debug. repeat match goal with |- context[c =? ?k] => replace (c =? k) with false by lia end. reflexivity. Qed.
Lemma reason_unknown c : (forall s, ~ In (c, s) error_codes) ->
  exists ds, reason_debug c = str "Reason(" ++ ds ++ str ")" /\ ds <> [] /\ hex_num ds c.
Proof. intros H. apply unknown_code in H. exists (hex_print c). rewrite reason_over by exact H. destruct (hex_print_num c) as [K1 K2]. auto. Qed.
Lemma hex_num_val l n : hex_num l n -> n = hex_val l.
Proof.
  induction 1 as [|l n b d H IH Hb]; [reflexivity|]. unfold hex_val, digits_val in *. rewrite fold_left_app. cbn [fold_left]. rewrite <- IH.
  apply hexv_spec in Hb. unfold hex_val_digit. rewrite Hb. lia.
Qed.
Lemma known_code c : c <= 13 -> exists s, In (c, s) error_codes.
Proof.
  intros L. assert (D : exists k, (k <= 13)%nat /\ c = N.of_nat k) by (exists (N.to_nat c); lia). destruct D as (k & D & ->). clear L.
  do 14 (destruct k as [|k]; [eexists; vm_compute; tauto|]). lia.
Qed.
Lemma reason_debug_inj c c' : reason_debug c = reason_debug c' -> c = c'.
Proof.
  assert (G : forall s x ds, In (x, s) error_codes -> str s <> str "Reason(" ++ ds).
  { intros s x ds H K. cbn in H. repeat destruct H as [H|H]; try (injection H as <- <-; discriminate K); contradiction. }
  destruct (N.le_gt_cases c 13) as [L|L], (N.le_gt_cases c' 13) as [L'|L'].
  - intros E. destruct (known_code c L) as [s H], (known_code c' L') as [s' H']. rewrite (reason_known c s H), (reason_known c' s' H') in E.
    cbn in H, H'. repeat destruct H as [H|H]; try contradiction; injection H as <- <-;
      repeat destruct H' as [H'|H']; try contradiction; injection H' as <- <-; try reflexivity; discriminate E.
  - intros E. destruct (known_code c L) as [s H]. rewrite (reason_known c s H), (reason_over c' L') in E. exfalso. exact (G _ _ _ H E).
  - intros E. destruct (known_code c' L') as [s H]. rewrite (reason_known c' s H), (reason_over c L) in E. exfalso. symmetry in E. exact (G _ _ _ H E).
  - rewrite (reason_over c L), (reason_over c' L'). intros E. apply app_inv_head in E. apply app_inv_tail in E.
    rewrite (hex_num_val _ _ (proj1 (hex_print_num c))), E. symmetry. apply hex_num_val, hex_print_num.
Qed.
Lemma description_unknown c : reason_description c = str "unknown reason" <-> forall s, ~ In (c, s) error_codes.
Proof.
  split.
  - intros E s H. cbn in H. repeat destruct H as [H|H]; try contradiction; injection H as <- <-; vm_compute in E; discriminate.
  - intros H. apply unknown_code in H. unfold reason_description.
    repeat match goal with |- context[c =? ?k] => replace (c =? k) with false by lia end. reflexivity.
Qed.
Lemma description_inj c c' s s' : In (c, s) error_codes -> In (c', s') error_codes -> reason_description c = reason_description c' -> c = c'.
Proof.
  intros H H' E. cbn in H, H'. repeat destruct H as [H|H]; try contradiction; injection H as <- <-;
      repeat destruct H' as [H'|H']; try contradiction; injection H' as <- <-; try reflexivity; vm_compute in E; discriminate E.
Qed.

(** ** validate_request *)
Lemma safe_cacheable_spec m : safe_and_cacheable m = true <-> safe_cacheable m.
Proof. unfold safe_and_cacheable, safe_cacheable. destruct m; cbn; split; intros H; try discriminate; auto; destruct H; discriminate. Qed.
Lemma validate_ok q : validate_request q = Ok tt <-> safe_cacheable (q_method q) /\ exists n, hm_body_len (q_header q) = Ok n /\ n <> 0%Z.
Proof.
  unfold validate_request. rewrite <- safe_cacheable_spec. destruct (hm_body_len (q_header q)) as [n| | |]; cbn [bind].
  - destruct (Z.eqb_spec n 0) as [->|N].
    + split; [discriminate|]. intros (_ & n & K & K'). congruence.
    + destruct (safe_and_cacheable (q_method q)); cbn [negb]; split; try discriminate.
      * intros _. split; [reflexivity|eauto].
      * reflexivity.
      * intros [K _]. discriminate.
  - split; [discriminate|intros (_ & n & K & _); discriminate].
  - split; [discriminate|intros (_ & n & K & _); discriminate].
  - split; [discriminate|intros (_ & n & K & _); discriminate].
Qed.

(** ** Display *)
Lemma hm_display_text h : Forall (fun nv => is_utf8 (snd nv)) h -> hm_display h = hm_encode h.
Proof.
  intros H. unfold hm_display, hm_encode. f_equal. induction H as [|[n v] h Hv _ IH]; [reflexivity|]. cbn [map concat]. rewrite IH. f_equal.
  unfold header_line_display, encode_header_line. cbn [fst snd]. rewrite utf8_lossy_valid; [reflexivity|]. apply utf8_valid_iff, Hv.
Qed.
Lemma req_display_wire q body w : Forall (fun nv => is_utf8 (snd nv)) (q_header q) -> req_http1_data q body = Ok w -> req_display q body = w.
Proof.
  intros H. unfold req_http1_data, req_encode_header, req_display. rewrite hm_display_text by exact H.
  unfold method_encode, version_encode. destruct (q_method q), (q_version q); cbn [bind]; try discriminate; intros E; injection E as <-;
    do 4 (rewrite <- ?app_assoc; cbn [app]); reflexivity.
Qed.
Lemma resp_display_wire p body w : 100 <= p_status p <= 999 -> Forall (fun nv => is_utf8 (snd nv)) (p_header p) ->
  resp_httpdata p body = Ok w -> resp_display p body = w.
Proof.
  intros R H. unfold resp_httpdata, resp_encode_header, resp_display, status_encode, status_display. rewrite hm_display_text by exact H.
  rewrite status_str_dec by exact R.
  unfold version_encode. destruct (p_version p), (canonical_reason (p_status p)); cbn [bind]; try discriminate; intros E; injection E as <-;
    do 4 (rewrite <- ?app_assoc; cbn [app]); reflexivity.
Qed.

(** ** Copies *)
Lemma ext_clone_spec {V} IX (e : extensions V) m : built e m ->
  forall k, ext_get (ext_clone IX e) k = if k =? IX then m IX else None.
Proof.
  intros B k. pose proof (get_spec e m (built_inv e m B) IX) as G. unfold ext_clone. rewrite G.
  destruct (m IX) as [v|] eqn:E.
  - apply (get_spec _ (fun U => if U =? IX then Some v else None)).
    apply (insert_spec ext_new (fun _ => None) IX v), built_inv, bt_new.
  - rewrite (get_spec ext_new (fun _ => None)) by (apply built_inv, bt_new). destruct (k =? IX); reflexivity.
Qed.
