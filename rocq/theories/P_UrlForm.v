(** The exact language of Url::parse on texts without '@', totality, ports and
    the URL of a request with a Host header. *)
From Coq Require Import Ascii String NArith ZArith Lia Bool List ZifyBool ZifyNat ZifyN.
From Verif Require Import Base S_Utf8 P_Base M_Std P_Std M_Helper M_Header M_Url M_Http1 S_Http1 S_Http1Api S_Hex S_Map S_Url P_Helper P_Header P_Http1 P_Msg P_Chunk P_Map P_Url.
Import ListNotations.
Local Open Scope N_scope.
Ltac Zify.zify_post_hook ::= Z.div_mod_to_equations.

Lemma span_pred (f : N -> bool) l : exists a b, l = a ++ b /\ forallb f a = true /\ (b = [] \/ exists x b', b = x :: b' /\ f x = false).
Proof.
  induction l as [|x l (a & b & E & Ha & Hb)]; [exists [], []; auto|]. destruct (f x) eqn:Ex.
  - exists (x :: a), b. subst l. cbn. rewrite Ex. auto.
  - exists [], (x :: l). split; [reflexivity|]. split; [reflexivity|]. right. eauto.
Qed.
Definition partb (b : N) : bool := is_token b && negb (b =? 58) && negb (b =? 64) && negb (b =? 47) && negb (b =? 63).
Definition pathb (b : N) : bool := is_token b && negb (b =? 63) && negb (b =? 64).
Definition queryb (b : N) : bool := is_token b && negb (b =? 64).
Lemma partb_ok b : partb b = true <-> part_char b.
Proof. unfold partb, part_char. rewrite <- token_vchar, !andb_true_iff, !negb_true_iff, !N.eqb_neq. generalize (is_token b); intros t. cbn. intuition lia. Qed.
Lemma pathb_ok b : pathb b = true <-> path_char b.
Proof. unfold pathb, path_char. rewrite <- token_vchar, !andb_true_iff, !negb_true_iff, !N.eqb_neq. tauto. Qed.
Lemma queryb_ok b : queryb b = true <-> query_char b.
Proof. unfold queryb, query_char. rewrite <- token_vchar, !andb_true_iff, !negb_true_iff, !N.eqb_neq. tauto. Qed.
Lemma forallb_Forall_iff (f : N -> bool) (P : N -> Prop) l : (forall b, f b = true <-> P b) -> (forallb f l = true <-> Forall P l).
Proof.
  intros H. rewrite forallb_forall, Forall_forall. split; intros K b Hb; apply H, K, Hb.
Qed.

(** ** Raw decomposition *)
Definition portc (b : N) : Prop := part_char b \/ b = 63.
Definition no_q (t : bytes) : bytes := filter (fun b => negb (b =? 63)) t.
Inductive raw_port : bytes -> option bytes -> Prop :=
| rp_none : raw_port [] None
| rp_some c t : c = 58 \/ c = 63 -> Forall portc t -> raw_port (c :: t) (Some (no_q t)).
Inductive raw_query : bytes -> option bytes -> Prop :=
| rq_none : raw_query [] None
| rq_some t : Forall query_char t -> raw_query (63 :: t) (Some t).
Inductive raw_path_query : bytes -> option bytes -> option bytes -> Prop :=
| rpq_none : raw_path_query [] None None
| rpq_some t qq q : Forall path_char t -> raw_query qq q -> raw_path_query (47 :: t ++ qq) (Some (47 :: t)) q.

Lemma loop_port a b c d e f t : Forall portc t -> forall v r,
  url_loop true (mkUst a b (Some c) d e f false v) (t ++ r) = url_loop true (mkUst a b (Some c) d e f false (v ++ no_q t)) r.
Proof.
  intros H. induction H as [|x t [Hx| ->] _ IH]; intros v r; [cbn; rewrite app_nil_r; reflexivity| |].
  - cbn [app url_loop]. rewrite part_step by exact Hx. cbn [bind]. rewrite IH. unfold no_q. cbn [filter].
    destruct (x =? 63) eqn:E; [destruct Hx as [_ Hx]; cbn in Hx; lia|]. cbn [negb]. rewrite <- app_assoc. reflexivity.
  - cbn [app url_loop url_step negb is_some]. change (63 =? 58) with false. change (63 =? 64) with false.
    change (63 =? 47) with false. change (63 =? 63) with true. cbv iota. cbn [andb bind]. apply IH.
Qed.
Lemma part_bad hd a b c d e f v x : partb x = false -> x <> 58 -> x <> 64 -> x <> 47 -> x <> 63 ->
  forall fs, url_step hd (mkUst a b c d e f fs v) x = Err (EUrl UrlInvalid).
Proof.
  intros H H1 H2 H3 H4 fs. unfold partb in H. unfold url_step.
  destruct (x =? 58) eqn:?; [lia|]. destruct (x =? 64) eqn:?; [lia|]. destruct (x =? 47) eqn:?; [lia|]. destruct (x =? 63) eqn:?; [lia|].
  cbn [negb] in H. rewrite !andb_true_r in H. rewrite H. reflexivity.
Qed.
Lemma path_bad hd a b c d e f v x : pathb x = false -> x <> 64 -> x <> 63 -> url_step hd (mkUst a b c d e f true v) x = Err (EUrl UrlInvalid).
Proof.
  intros H H1 H2. assert (T : is_token x = false).
  { unfold pathb in H. destruct (x =? 63) eqn:?; [lia|]. destruct (x =? 64) eqn:?; [lia|]. cbn [negb] in H. rewrite !andb_true_r in H. exact H. }
  unfold url_step. destruct (x =? 58) eqn:E1; [apply N.eqb_eq in E1; subst x; discriminate|].
  destruct (x =? 64) eqn:?; [lia|]. destruct (x =? 47) eqn:E3; [apply N.eqb_eq in E3; subst x; discriminate|].
  destruct (x =? 63) eqn:?; [lia|]. rewrite T. reflexivity.
Qed.
Lemma query_bad hd a b c d e f v x : queryb x = false -> x <> 64 -> url_step hd (mkUst a b c d (Some e) f true v) x = Err (EUrl UrlInvalid).
Proof.
  intros H H1. assert (T : is_token x = false).
  { unfold queryb in H. destruct (x =? 64) eqn:?; [lia|]. cbn [negb] in H. rewrite !andb_true_r in H. exact H. }
  unfold url_step. destruct (x =? 58) eqn:E1; [apply N.eqb_eq in E1; subst x; discriminate|].
  destruct (x =? 64) eqn:?; [lia|]. destruct (x =? 47) eqn:E3; [apply N.eqb_eq in E3; subst x; discriminate|].
  destruct (x =? 63) eqn:E4; [apply N.eqb_eq in E4; subst x; discriminate|]. rewrite T. reflexivity.
Qed.
(** From inside the query. *)
Lemma query_loop hd a b c d e v l st : ~ In 64 l ->
  (url_loop hd (mkUst a b c d (Some e) None true v) l = Ok st <->
   Forall query_char l /\ st = mkUst a b c d (Some e) (Some (v ++ l)) true []).
Proof.
  intros H. destruct (span_pred queryb l) as (t & r & -> & Ht & Hr).
  apply (forallb_Forall_iff _ _ _ queryb_ok) in Ht. rewrite loop_query by exact Ht.
  destruct Hr as [->|(x & r' & -> & Hx)].
  - rewrite app_nil_r. cbn. split; [intros K; injection K as <-; auto|intros [_ ->]; reflexivity].
  - assert (N64 : x <> 64) by (intros ->; apply H, in_or_app; right; left; reflexivity).
    cbn [url_loop]. rewrite query_bad by assumption. cbn [bind]. split; [discriminate|].
    intros [K _]. apply Forall_app in K as [_ K]. apply Forall_inv in K. apply queryb_ok in K. congruence.
Qed.
(** From inside the path; [hd] or a known domain decides what the end means,
    so both callers' states are covered by one hypothesis on [url_finish]. *)
Lemma path_loop hd a b c d v l st : ~ In 64 l -> (c <> None \/ hd = false) ->
  (url_loop hd (mkUst a b c d None None true v) l = Ok st <->
   exists t qq q, l = t ++ qq /\ Forall path_char t /\ raw_query qq q /\ st = mkUst a b c d (Some (v ++ t)) q true []).
Proof.
  intros H Hc. destruct (span_pred pathb l) as (t & r & -> & Ht & Hr).
  apply (forallb_Forall_iff _ _ _ pathb_ok) in Ht. rewrite loop_path by exact Ht.
  assert (U : forall t' qq q, t ++ r = t' ++ qq -> Forall path_char t' -> raw_query qq q -> t' = t /\ qq = r).
  { intros t' qq q E Ht' Hq. revert t' E Ht'. clear H. induction Ht as [|y t Hy Ht IH]; intros [|y' t'] E Ht'; cbn in E.
    - auto.
    - destruct Hr as [->|(x & r' & -> & Hx)]; [discriminate|]. injection E as -> _. apply Forall_inv, pathb_ok in Ht'. congruence.
    - destruct Hq; [discriminate|]. injection E as -> _. destruct Hy as [_ [Hy _]]. congruence.
    - injection E as <- E. destruct (IH t' E) as [-> ->]; [inversion Ht'; assumption|auto]. }
  destruct Hr as [->|(x & r' & -> & Hx)].
  - assert (F : url_finish hd (mkUst a b c d None None true (v ++ t)) = mkUst a b c d (Some (v ++ t)) None true []).
    { cbn. destruct c; [reflexivity|]. destruct Hc as [Hc| ->]; [contradiction|reflexivity]. }
    cbn [url_loop]. rewrite F.
    split.
    + intros K. injection K as <-. exists t, [], None. rewrite !app_nil_r. split; [reflexivity|]. split; [exact Ht|]. split; [apply rq_none|reflexivity].
    + intros (t' & qq & q & E & Ht' & Hq & ->). destruct (U t' qq q E Ht' Hq) as [-> ->]. inversion Hq. reflexivity.
  - assert (N64 : x <> 64) by (intros ->; apply H, in_or_app; right; left; reflexivity).
    destruct (N.eq_dec x 63) as [->|N63].
    + cbn [url_loop url_step negb is_some]. change (63 =? 58) with false. change (63 =? 64) with false. change (63 =? 47) with false.
      change (63 =? 63) with true. cbv iota. cbn [bind]. rewrite query_loop.
      2:{ intros K. apply H, in_or_app. right. right. exact K. }
      split.
      * intros [K ->]. exists t, (63 :: r'), (Some r'). repeat split; [exact Ht|constructor; exact K].
      * intros (t' & qq & q & E & Ht' & Hq & ->). destruct (U t' qq q E Ht' Hq) as [-> ->]. inversion Hq; subst. auto.
    + cbn [url_loop]. rewrite path_bad by assumption. cbn [bind]. split; [discriminate|].
      intros (t' & qq & q & E & Ht' & Hq & ->). destruct (U t' qq q E Ht' Hq) as [-> ->]. inversion Hq; subst. congruence.
Qed.
Lemma raw_pq_no r pa q : raw_path_query r pa q -> r = [] \/ exists r', r = 47 :: r'.
Proof. intros []; eauto. Qed.
(** From inside the port. *)
Lemma port_loop a b c v l st : ~ In 64 l ->
  (url_loop true (mkUst a b (Some c) None None None false v) l = Ok st <->
   exists t r pa q, l = t ++ r /\ Forall portc t /\ raw_path_query r pa q /\ st = mkUst a b (Some c) (Some (v ++ no_q t)) pa q (is_some pa) []).
Proof.
  intros H. destruct (span_pred (fun x => partb x || (x =? 63)) l) as (t & r & -> & Ht & Hr).
  assert (PB : forall x, partb x || (x =? 63) = true <-> portc x).
  { intros x. rewrite orb_true_iff, partb_ok, N.eqb_eq. reflexivity. }
  apply (forallb_Forall_iff _ _ _ PB) in Ht. rewrite loop_port by exact Ht.
  assert (U : forall t' qq pa q, t ++ r = t' ++ qq -> Forall portc t' -> raw_path_query qq pa q -> t' = t /\ qq = r).
  { intros t' qq pa q E Ht' Hq. revert t' E Ht'. clear H. induction Ht as [|y t Hy Ht IH]; intros [|y' t'] E Ht'; cbn in E.
    - auto.
    - destruct Hr as [->|(x & r' & -> & Hx)]; [discriminate|]. injection E as -> _. apply Forall_inv, PB in Ht'. congruence.
    - destruct Hq; [discriminate|]. injection E as -> _. destruct Hy as [[_ Hy]|Hy]; [cbn in Hy; lia|discriminate].
    - injection E as <- E. destruct (IH t' E) as [-> ->]; [inversion Ht'; assumption|auto]. }
  destruct Hr as [->|(x & r' & -> & Hx)].
  - cbn [url_loop url_finish is_some negb]. split.
    + intros K. injection K as <-. exists t, [], None, None. repeat split; [exact Ht|constructor].
    + intros (t' & qq & pa & q & E & Ht' & Hq & ->). destruct (U t' qq pa q E Ht' Hq) as [-> ->]. inversion Hq. reflexivity.
  - assert (N64 : x <> 64) by (intros ->; apply H, in_or_app; right; left; reflexivity).
    apply orb_false_iff in Hx as [Hx1 Hx2].
    destruct (N.eq_dec x 47) as [->|N47].
    + cbn [url_loop url_step negb is_some]. change (47 =? 58) with false. change (47 =? 64) with false. change (47 =? 47) with true. cbv iota. cbn [bind].
      rewrite path_loop; [|intros K; apply H, in_or_app; right; right; exact K|left; discriminate]. split.
      * intros (t' & qq & q & -> & Ht' & Hq & ->). exists t, (47 :: t' ++ qq), (Some (47 :: t')), q. repeat split; [exact Ht|constructor; assumption].
      * intros (t' & qq & pa & q & E & Ht' & Hq & ->). destruct (U t' qq pa q E Ht' Hq) as [-> ->]. inversion Hq as [|t1 qq1 q1 Ht1 Hq1]; subst.
        exists t1, qq1, q. repeat split; assumption.
    + assert (G : url_loop true (mkUst a b (Some c) None None None false (v ++ no_q t)) (x :: r') = Err (EUrl UrlInvalid)).
      { cbn [url_loop]. destruct (N.eq_dec x 58) as [->|N58]; [reflexivity|]. rewrite part_bad; [reflexivity|try assumption; lia..]. }
      rewrite G. split; [discriminate|].
      intros (t' & qq & pa & q & E & Ht' & Hq & ->). destruct (U t' qq pa q E Ht' Hq) as [-> ->]. inversion Hq; subst. congruence.
Qed.
Lemma abs_loop l st : ~ In 64 l ->
  (url_loop true (ust0 false) l = Ok st <->
   exists h pp po r pa q, l = h ++ pp ++ r /\ Forall part_char h /\ raw_port pp po /\ raw_path_query r pa q /\
     st = mkUst None None (Some h) po pa q (is_some pa) []).
Proof.
  intros H. destruct (span_pred partb l) as (t & r & -> & Ht & Hr).
  apply (forallb_Forall_iff _ _ _ partb_ok) in Ht. unfold ust0. rewrite loop_part by exact Ht. cbn [app].
  assert (U : forall h pp po r2 pa q, t ++ r = h ++ pp ++ r2 -> Forall part_char h -> raw_port pp po -> raw_path_query r2 pa q ->
    h = t /\ pp ++ r2 = r).
  { intros t' pp po qq pa q E Ht' Hp Hq. revert t' E Ht'. clear H. induction Ht as [|y t Hy Ht IH]; intros [|y' t'] E Ht'; cbn in E.
    - auto.
    - destruct Hr as [->|(x & r' & -> & Hx)]; [discriminate|]. injection E as -> _. apply Forall_inv, partb_ok in Ht'. congruence.
    - destruct Hy as [_ Hy]. destruct Hp as [|c t' Hc _]; cbn in E.
      + destruct Hq; [discriminate|]. injection E as -> _. cbn in Hy. lia.
      + injection E as -> _. cbn in Hy. lia.
    - injection E as <- E. destruct (IH t' E) as [-> E2]; [inversion Ht'; assumption|auto]. }
  destruct Hr as [->|(x & r' & -> & Hx)].
  - cbn [url_loop url_finish is_some negb]. split.
    + intros K. injection K as <-. exists t, [], None, [], None, None. split; [rewrite !app_nil_r; reflexivity|].
      split; [exact Ht|]. split; [constructor|]. split; [constructor|]. reflexivity.
    + intros (h & pp & po & r2 & pa & q & E & Hh & Hp & Hq & ->). destruct (U _ _ _ _ _ _ E Hh Hp Hq) as [-> E2].
      apply app_eq_nil in E2 as [-> ->]. inversion Hp. inversion Hq. reflexivity.
  - assert (N64 : x <> 64) by (intros ->; apply H, in_or_app; right; left; reflexivity).
    assert (N64' : ~ In 64 r') by (intros K; apply H, in_or_app; right; right; exact K).
    assert (G : x = 58 \/ x = 63 -> url_loop true (mkUst None None None None None None false t) (x :: r') =
      url_loop true (mkUst None None (Some t) None None None false []) r').
    { intros [-> | ->]; reflexivity. }
    destruct (N.eq_dec x 47) as [->|N47].
    + cbn [url_loop url_step negb is_some]. change (47 =? 58) with false. change (47 =? 64) with false. change (47 =? 47) with true. cbv iota. cbn [bind].
      rewrite path_loop; [|exact N64'|left; discriminate]. split.
      * intros (t' & qq & q & -> & Ht' & Hq & ->). exists t, [], None, (47 :: t' ++ qq), (Some (47 :: t')), q. split; [reflexivity|].
        split; [exact Ht|]. split; [constructor|]. split; [constructor; assumption|]. reflexivity.
      * intros (h & pp & po & r2 & pa & q & E & Hh & Hp & Hq & ->). destruct (U _ _ _ _ _ _ E Hh Hp Hq) as [-> E2].
        destruct Hp as [|c t' Hc _]; [|injection E2 as -> _; lia]. cbn in E2. subst r2. inversion Hq as [|t1 qq1 q1 Ht1 Hq1]; subst. exists t1, qq1, q. repeat split; assumption.
    + destruct (N.eq_dec x 58) as [E58|N58]; [|destruct (N.eq_dec x 63) as [E63|N63]].
      3:{ cbn [url_loop]. rewrite part_bad by assumption. cbn [bind]. split; [discriminate|].
          intros (h & pp & po & r2 & pa & q & E & Hh & Hp & Hq & ->). destruct (U _ _ _ _ _ _ E Hh Hp Hq) as [-> E2].
          destruct Hp as [|c t' Hc _]; [|injection E2 as -> _; lia]. cbn in E2. subst r2. inversion Hq; subst. congruence. }
      all: rewrite G by lia.
      all: rewrite port_loop by exact N64'; split.
      1,3: intros (t' & r2 & pa & q & -> & Ht' & Hq & ->); exists t, (x :: t'), (Some (no_q t')), r2, pa, q; split; [reflexivity|];
           split; [exact Ht|]; split; [constructor; [lia|exact Ht']|]; split; [exact Hq|reflexivity].
      all: intros (h & pp & po & r2 & pa & q & E & Hh & Hp & Hq & ->); destruct (U _ _ _ _ _ _ E Hh Hp Hq) as [-> E2];
           destruct Hp as [|c t' Hc Ht']; [cbn in E2; subst r2; inversion Hq; subst; discriminate|]; injection E2 as -> E2;
           exists t', r2, pa, q; split; [symmetry; exact E2|]; split; [exact Ht'|]; split; [exact Hq|reflexivity].
Qed.

(** ** Building *)
Lemma decode_opt_ok o s : decode_opt o = Ok s <-> match o, s with Some t, Some x => text_of t x | None, None => True | _, _ => False end.
Proof.
  destruct o as [t|]; cbn [decode_opt].
  - split.
    + intros H. apply bind_ok in H as (r & H & K). injection K as <-. apply parse_url_token_ok, H.
    + destruct s as [x|]; [|contradiction]. intros H. apply parse_url_token_ok in H. rewrite H. reflexivity.
  - destruct s; split; try discriminate; auto; contradiction.
Qed.
Lemma build_ok sc us pw dom po pa q fs v u :
  url_build sc (mkUst us pw dom po pa q fs v) = Ok u <->
  exists us' pw' dom' po' pa' q' n, decode_opt us = Ok us' /\ decode_opt pw = Ok pw' /\ decode_opt dom = Ok dom' /\
    decode_opt po = Ok po' /\ (match po' with None => n = default_port sc | Some p => port_text p n end) /\
    decode_opt pa = Ok pa' /\ decode_opt q = Ok q' /\
    u = mkUrl sc (match pa' with Some p => p | None => str "/" end) us' pw' dom' (Some n) q'.
Proof.
  unfold url_build. cbn [s_user s_pass s_domain s_port s_path s_query]. split.
  - intros H. apply bind_ok in H as (us' & E1 & H). apply bind_ok in H as (pw' & E2 & H). apply bind_ok in H as (dom' & E3 & H).
    apply bind_ok in H as (po' & E4 & H). apply bind_ok in H as (port & E5 & H). apply bind_ok in H as (pa' & E6 & H).
    apply bind_ok in H as (q' & E7 & H). injection H as <-.
    destruct po' as [p|].
    + destruct (parse_uint 65536 p) as [n|] eqn:E; [|discriminate]. injection E5 as <-.
      exists us', pw', dom', (Some p), pa', q', n. repeat split; try assumption; try (apply parse_uint_spec; exact E).
      all: apply parse_uint_spec in E; destruct E as [E E']; assumption.
    + injection E5 as <-. exists us', pw', dom', None, pa', q', (default_port sc). repeat split; try assumption.
  - intros (us' & pw' & dom' & po' & pa' & q' & n & E1 & E2 & E3 & E4 & E5 & E6 & E7 & ->). rewrite E1, E2, E3, E4. cbn [bind].
    destruct po' as [p|].
    + apply parse_uint_spec in E5. rewrite E5. cbn [bind]. rewrite E6. cbn [bind]. rewrite E7. reflexivity.
    + cbn [bind]. rewrite E6. cbn [bind]. rewrite E7. subst n. reflexivity.
Qed.

(** ** Schemes, the other direction *)
Lemma scheme_token_iff b : b < 256 -> (is_scheme_token b = true <-> scheme_char b).
Proof.
  intros B. assert (G : Bool.eqb (scheme_charb b) (is_scheme_token b) = true).
  { revert b B. apply byte_sweep. vm_compute. reflexivity. }
  apply eqb_prop in G. rewrite <- G. unfold scheme_charb, scheme_char, alpha, upper, lower, digit.
  rewrite !orb_true_iff, existsb_exists. split.
  - intros [[[H|H]|H]|(x & H & E)]; [left; left; lia|left; right; lia|right; left; lia|].
    apply N.eqb_eq in E. subst x. auto.
  - intros [[H|H]|[H|H]]; [left; left; left; lia|left; left; right; lia|left; right; lia|].
    right. exists b. split; [exact H|apply N.eqb_refl].
Qed.
Lemma alpha_iff b : is_alpha b = true <-> alpha b.
Proof.
  unfold is_alpha, alpha, upper, lower. destruct ((65 <=? b) && (b <=? 90)) eqn:E1; [split; [left; lia|reflexivity]|].
  destruct ((97 <=? b) && (b <=? 122)) eqn:E2; [split; [right; lia|reflexivity]|split; [discriminate|lia]].
Qed.
Lemma scheme_of_legal b t s : alpha b -> Forall scheme_char t -> scheme_of_str (b :: t) = Ok s ->
  legal_scheme s /\ scheme_str s = b :: t.
Proof.
  intros Ha Ht. unfold scheme_of_str. destruct (64 <? blen (b :: t)) eqn:L; [discriminate|].
  assert (K : forall k, In k known_schemes -> beq (b :: t) k = true -> b :: t = k) by (intros k _ E; apply beq_eq, E).
  repeat match goal with |- (if beq ?x ?y then _ else _) = _ -> _ => 
    destruct (beq x y) eqn:?E; [match goal with E : beq x y = true |- _ => apply beq_eq in E; intros H; injection H as <-; split; [constructor|symmetry; exact E] end|] end.
  intros H. injection H as <-. split; [|reflexivity]. constructor; [exact Ha|exact Ht|unfold blen in L; cbn [length] in L; lia|].
  intros H. unfold known_schemes in H. cbn [map In] in H.
  destruct H as [H|[H|[H|[H|[H|H]]]]]; [rewrite H, beq_refl in *; discriminate..|exact H].
Qed.
Lemma parse_scheme_sound b l s r : bytes_ok (b :: l) -> is_alpha b = true -> parse_scheme (b :: l) = Ok (s, r) ->
  legal_scheme s /\ b :: l = scheme_str s ++ r.
Proof.
  intros Hl Ha H. unfold parse_scheme in H. apply bind_ok in H as ([t r'] & H1 & H2). apply parse_token_by_ok in H1 as (E & N & F & _).
  destruct (64 <? blen t); [discriminate|]. apply bind_ok in H2 as (s' & H2 & K). injection K as -> ->.
  destruct t as [|c t]; [contradiction|]. injection E as <- ->.
  assert (T : Forall scheme_char t).
  { cbn [forallb] in F. apply andb_true_iff in F as [_ F]. rewrite forallb_forall in F. apply Forall_forall. intros x Hx.
    apply scheme_token_iff; [|apply F, Hx]. apply bytes_ok_cons in Hl as [_ Hl]. apply bytes_ok_app in Hl as [Hl _].
    unfold bytes_ok in Hl. rewrite Forall_forall in Hl. apply Hl, Hx. }
  apply alpha_iff in Ha. destruct (scheme_of_legal b t s Ha T H2) as [L E]. split; [exact L|]. rewrite E. reflexivity.
Qed.
Lemma default_port_spec s n :
  (In (s, n) default_ports \/ ((forall m, ~ In (s, m) default_ports) /\ n = 0)) <-> n = default_port s.
Proof.
  assert (D : forall m, In (s, m) default_ports -> m = default_port s).
  { intros m H. cbn in H. destruct H as [H|[H|[H|[H|[H|H]]]]]; [injection H as <- <-; reflexivity..|contradiction]. }
  assert (C : In (s, default_port s) default_ports \/ default_port s = 0 /\ forall m, ~ In (s, m) default_ports).
  { destruct s; cbn; auto 8; right; (split; [reflexivity|]); intros m H; destruct H as [H|[H|[H|[H|[H|H]]]]]; try discriminate; contradiction. }
  split.
  - intros [H|[H ->]]; [apply D, H|]. destruct C as [C|[C _]]; [exfalso; exact (H _ C)|symmetry; exact C].
  - intros ->. destruct C as [C|[C1 C2]]; [left; exact C|right; split; [exact C2|exact C1]].
Qed.
Lemma raw_port_part s pp po po' n : raw_port pp po -> decode_opt po = Ok po' ->
  match po' with None => n = default_port s | Some p => port_text p n end -> port_part s pp n.
Proof.
  intros [|c t Hc Ht] D P; apply decode_opt_ok in D; destruct po' as [p|]; try contradiction.
  - apply pp_none, default_port_spec, P.
  - eapply pp_some; eassumption.
Qed.
Lemma port_part_raw s pp n : port_part s pp n -> exists po po', raw_port pp po /\ decode_opt po = Ok po' /\
  match po' with None => n = default_port s | Some p => port_text p n end.
Proof.
  intros [m H|c t ds m H1 H2 H3 H4].
  - exists None, None. split; [constructor|]. split; [reflexivity|]. apply default_port_spec, H.
  - exists (Some (no_q t)), (Some ds). split; [constructor; assumption|]. split; [apply decode_opt_ok; exact H3|exact H4].
Qed.
Lemma raw_query_part qq q q' : raw_query qq q -> decode_opt q = Ok q' -> query_part qq q'.
Proof. intros [|t Ht] D; apply decode_opt_ok in D; destruct q'; try contradiction; constructor; assumption. Qed.
Lemma query_part_raw qq q' : query_part qq q' -> exists q, raw_query qq q /\ decode_opt q = Ok q'.
Proof.
  intros [|t q Ht D]; [exists None; split; [constructor|reflexivity]|]. exists (Some t). split; [constructor; exact Ht|apply decode_opt_ok; exact D].
Qed.
Lemma raw_pq_part r pa q pa' q' : raw_path_query r pa q -> decode_opt pa = Ok pa' -> decode_opt q = Ok q' ->
  exists pt qq, r = pt ++ qq /\ path_part pt (match pa' with Some p => p | None => str "/" end) /\ query_part qq q' /\ (pt = [] -> qq = []).
Proof.
  intros [|t qq q0 Ht Hq] D1 D2.
  - injection D1 as <-. injection D2 as <-. exists [], []. repeat split; constructor.
  - apply decode_opt_ok in D1. destruct pa' as [p|]; [|contradiction]. exists (47 :: t), qq. split; [reflexivity|].
    split; [constructor; assumption|]. split; [eapply raw_query_part; eassumption|discriminate].
Qed.
Lemma part_raw_pq pt p qq q' : path_part pt p -> query_part qq q' -> (pt = [] -> qq = []) ->
  exists pa pa' q, raw_path_query (pt ++ qq) pa q /\ decode_opt pa = Ok pa' /\ decode_opt q = Ok q' /\
    p = match pa' with Some p => p | None => str "/" end /\ (pt <> [] -> exists t, pt = 47 :: t).
Proof.
  intros [|t p' Ht D] Hq E.
  - rewrite (E eq_refl) in *. inversion Hq; subst. exists None, None, None. repeat split; [constructor|contradiction].
  - apply query_part_raw in Hq as (q & Hq & Dq). exists (Some (47 :: t)), (Some p'), q.
    split; [constructor; assumption|]. split; [apply decode_opt_ok; exact D|]. split; [exact Dq|]. split; [reflexivity|eauto].
Qed.
(** In origin form an '@' is never accepted. *)
Lemma origin_no_at l : forall pa q v st, url_loop false (mkUst None None None None pa q true v) l = Ok st -> ~ In 64 l.
Proof.
  induction l as [|x l IH]; intros pa q v st H K; [destruct K|]. cbn [url_loop] in H. apply bind_ok in H as (s' & H1 & H2).
  assert (N : x <> 64) by (intros ->; discriminate). destruct K as [->|K]; [contradiction|].
  assert (S : exists pa' q' v', s' = mkUst None None None None pa' q' true v').
  { unfold url_step in H1. cbn [negb is_some] in H1.
    repeat match type of H1 with (if ?c then _ else _) = _ => destruct c end; try discriminate; injection H1 as <-; eauto. }
  destruct S as (pa' & q' & v' & ->). exact (IH _ _ _ _ H2 K).
Qed.
Lemma url_exact l u : bytes_ok l -> (hd_error l = Some 47 \/ ~ In 64 l) -> (url_parse l = Ok u <-> url_form l u).
Proof.
  intros Hl Hat. split.
  - intros H. unfold url_parse in H. destruct l as [|b l]; [discriminate|]. destruct (is_alpha b) eqn:Ea.
    + destruct Hat as [Hat|Hat]; [injection Hat as ->; discriminate|].
      apply bind_ok in H as ([s l1] & H1 & H). apply bind_ok in H as ([[] l2] & H2 & H). apply bind_ok in H as ([[] l3] & H3 & H).
      apply bind_ok in H as ([[] l4] & H4 & H). apply bind_ok in H as (st & H5 & H).
      apply parse_scheme_sound in H1 as [Ls E]; [|assumption..]. apply expect_ok in H2, H3, H4. subst l1 l2 l3.
      rewrite E in *. change (scheme_str s ++ 58 :: 47 :: 47 :: l4) with (scheme_str s ++ str "://" ++ l4) in *.
      apply abs_loop in H5; [|intros K; apply Hat; apply in_or_app; right; apply in_or_app; right; exact K].
      destruct H5 as (h & pp & po & r & pa & q & -> & Hh & Hp & Hr & ->).
      apply build_ok in H as (us' & pw' & dom' & po' & pa' & q' & n & D1 & D2 & D3 & D4 & D5 & D6 & D7 & ->).
      injection D1 as <-. injection D2 as <-. apply decode_opt_ok in D3. destruct dom' as [d|]; [|contradiction].
      destruct (raw_pq_part _ _ _ _ _ Hr D6 D7) as (pt & qq & -> & P1 & P2 & P3).
      apply uf_absolute; try assumption. eapply raw_port_part; eassumption.
    + destruct (b =? 47) eqn:E; [|discriminate]. apply N.eqb_eq in E. subst b.
      apply bind_ok in H as (st & H5 & H). unfold ust0 in H5.
      pose proof (origin_no_at _ _ _ _ _ H5) as N64. cbn [url_loop url_step negb is_some] in H5.
      change (47 =? 58) with false in H5. change (47 =? 64) with false in H5. change (47 =? 47) with true in H5. cbv iota in H5. cbn [bind app] in H5.
      apply path_loop in H5; [|intros K; apply N64; right; exact K|right; reflexivity].
      destruct H5 as (t & qq & q & -> & Ht & Hq & ->).
      apply build_ok in H as (us' & pw' & dom' & po' & pa' & q' & n & D1 & D2 & D3 & D4 & D5 & D6 & D7 & ->).
      injection D1 as <-. injection D2 as <-. injection D3 as <-. injection D4 as <-. cbn in D5. subst n.
      apply decode_opt_ok in D6. destruct pa' as [p|]; [|contradiction].
      change (47 :: t ++ qq) with ((47 :: t) ++ qq). apply uf_origin; [constructor; assumption|discriminate|eapply raw_query_part; eassumption].
  - intros F. revert Hl Hat. destruct F as [s h d pp n pa p qq q Ls Hh Hd Hp Hpa Hq Hn|pa p qq q Hpa Hn Hq]; intros Hl Hat.
    + change (str "://") with [58; 47; 47] in *. cbn [app] in *. set (rest := h ++ pp ++ pa ++ qq) in *.
      destruct (legal_scheme_parse s (47 :: 47 :: rest) Ls) as [E (b & t & Eb & Ha)].
      unfold url_parse. rewrite E. rewrite Eb in Hat. rewrite Eb. cbn [app]. rewrite Ha. cbn [bind].
      unfold expect, next. cbn [bind]. change (58 =? 58) with true. cbv iota. cbn [bind].
      change (47 =? 47) with true. cbv iota. cbn [bind]. change (47 =? 47) with true. cbv iota. cbn [bind].
      assert (N64 : ~ In 64 rest).
      { destruct Hat as [Hat|Hat]; [cbn [app hd_error] in Hat; assert (b = 47) by congruence; subst b; discriminate|]. intros K. apply Hat. apply in_or_app. right. do 3 right. exact K. }
      destruct (port_part_raw _ _ _ Hp) as (po & po' & R1 & R2 & R3).
      destruct (part_raw_pq _ _ _ _ Hpa Hq Hn) as (pa0 & pa' & q0 & P1 & P2 & P3 & P4 & _).
      rewrite (proj2 (abs_loop rest (mkUst None None (Some h) po pa0 q0 (is_some pa0) []) N64)).
      2:{ exists h, pp, po, (pa ++ qq), pa0, q0. repeat split; assumption. }
      cbn [bind]. apply build_ok. exists None, None, (Some d), po', pa', q, n.
      split; [reflexivity|]. split; [reflexivity|]. split; [apply decode_opt_ok; exact Hd|]. split; [exact R2|]. split; [exact R3|].
      split; [exact P2|]. split; [exact P3|]. rewrite P4. reflexivity.
    + destruct Hpa as [|t p Ht Hp]; [contradiction|]. cbn [app] in *. unfold url_parse. change (is_alpha 47) with false. change (47 =? 47) with true. cbv iota.
      apply query_part_raw in Hq as (q0 & Hq & Dq). unfold ust0. cbn [url_loop url_step negb is_some].
      change (47 =? 58) with false. change (47 =? 64) with false. change (47 =? 47) with true. cbv iota. cbn [bind app].
      assert (N64 : ~ In 64 (t ++ qq)).
      { intros K. apply in_app_or in K as [K|K].
        - rewrite Forall_forall in Ht. apply Ht in K. destruct K as (_ & _ & K). congruence.
        - destruct Hq as [|x Hx]; [destruct K|]. destruct K as [K|K]; [discriminate|]. rewrite Forall_forall in Hx. apply Hx in K. destruct K as [_ K]. congruence. }
      rewrite (proj2 (path_loop false None None None None [47] (t ++ qq) (mkUst None None None None (Some (47 :: t)) q0 true []) N64 (or_intror eq_refl))).
      2:{ exists t, qq, q0. repeat split; assumption. }
      cbn [bind]. apply build_ok. exists None, None, None, None, (Some p), q, 0.
      repeat (split; [first [reflexivity|assumption|apply decode_opt_ok; exact Hp]|]). reflexivity.
Qed.

(** ** Totality and what success means *)
Lemma url_step_returns hd s b : returns (url_step hd s b).
Proof.
  destruct s as [us pw dom po pa q fs v]. unfold url_step.
  repeat match goal with |- returns (if ?c then _ else _) => destruct c end; split; discriminate.
Qed.
Lemma url_loop_returns hd l : forall s, returns (url_loop hd s l).
Proof.
  induction l as [|b l IH]; intros s; [split; discriminate|]. cbn [url_loop]. apply returns_bind; [apply url_step_returns|]. intros s' _. apply IH.
Qed.
Lemma decode_opt_returns o : returns (decode_opt o).
Proof. destruct o; [|split; discriminate]. apply returns_bind; [apply parse_url_token_returns|]. intros a _. split; discriminate. Qed.
Lemma url_build_returns sc s : returns (url_build sc s).
Proof.
  unfold url_build. repeat (apply returns_bind; [try apply decode_opt_returns|intros ? _]); try (split; discriminate).
  match goal with |- returns (match ?x with _ => _ end) => destruct x as [p|] end; [destruct (parse_uint 65536 p)|]; split; discriminate.
Qed.
Lemma scheme_of_str_returns t : returns (scheme_of_str t).
Proof.
  unfold scheme_of_str. repeat match goal with |- returns (if ?c then _ else _) => destruct c end; split; discriminate.
Qed.
Lemma url_parse_returns l : returns (url_parse l).
Proof.
  unfold url_parse. destruct l as [|b l]; [split; discriminate|]. destruct (is_alpha b).
  - apply returns_bind.
    { apply returns_bind; [apply parse_token_by_total|]. intros [t r] _. destruct (64 <? blen t); [split; discriminate|].
      apply returns_bind; [apply scheme_of_str_returns|]. intros a _. split; discriminate. }
    intros [s l1] _. do 3 (apply returns_bind; [apply expect_total|intros [? ?] _]).
    apply returns_bind; [apply url_loop_returns|]. intros st _. apply url_build_returns.
  - destruct (b =? 47); [|split; discriminate]. apply returns_bind; [apply url_loop_returns|]. intros st _. apply url_build_returns.
Qed.
Lemma decode_opt_utf8 o s : decode_opt o = Ok s -> opt_utf8 s.
Proof. intros H. apply decode_opt_ok in H. destruct o, s; try contradiction; [apply H|exact I]. Qed.
Lemma legal_scheme_utf8 s : legal_scheme s -> is_utf8 (scheme_str s).
Proof.
  intros H. apply utf8_valid_iff, utf8_valid_ascii. destruct H as [| | | | |b t Ha Ht _ _]; cbn [scheme_str].
  1-5: apply Forall_forall; intros x Hx; cbn in Hx; repeat destruct Hx as [<-|Hx]; try lia; contradiction.
  assert (A : forall c, alpha c -> c < 128) by (unfold alpha, upper, lower; intros; lia).
  constructor; [apply A, Ha|]. eapply Forall_impl; [|exact Ht]. intros c [K|[K|K]]; [apply A, K|unfold digit in K; lia|].
  cbn in K. repeat destruct K as [<-|K]; try lia; contradiction.
Qed.
Lemma url_parse_facts l u : bytes_ok l -> url_parse l = Ok u ->
  (exists p, u_port u = Some p /\ p < 65536) /\ is_utf8 (scheme_str (u_scheme u)) /\ is_utf8 (u_path u) /\
  opt_utf8 (u_user u) /\ opt_utf8 (u_pass u) /\ opt_utf8 (u_domain u) /\ opt_utf8 (u_query u).
Proof.
  intros Hl H.
  assert (G : exists st sc, url_build sc st = Ok u /\ is_utf8 (scheme_str sc)).
  { unfold url_parse in H. destruct l as [|b l]; [discriminate|]. destruct (is_alpha b) eqn:Ea.
    - apply bind_ok in H as ([s l1] & H1 & H). apply bind_ok in H as ([[] l2] & H2 & H). apply bind_ok in H as ([[] l3] & H3 & H).
      apply bind_ok in H as ([[] l4] & H4 & H). apply bind_ok in H as (st & H5 & H). apply parse_scheme_sound in H1 as [Ls _]; [|assumption..].
      exists st, s. split; [exact H|apply legal_scheme_utf8, Ls].
    - destruct (b =? 47); [|discriminate]. apply bind_ok in H as (st & H5 & H). exists st, ScNone. split; [exact H|].
      exists []. split; [constructor|reflexivity]. }
  destruct G as ([us pw dom po pa q fs v] & sc & G & Hs).
  apply build_ok in G as (us' & pw' & dom' & po' & pa' & q' & n & D1 & D2 & D3 & D4 & D5 & D6 & D7 & ->).
  cbn [u_port u_scheme u_path u_user u_pass u_domain u_query]. apply decode_opt_utf8 in D1, D2, D3, D6, D7.
  split.
  { exists n. split; [reflexivity|]. destruct po' as [p|]; [exact (proj1 D5)|]. subst n. destruct sc; cbn; lia. }
  split; [exact Hs|]. split.
  { destruct pa' as [p|]; [exact D6|]. apply utf8_valid_iff. reflexivity. }
  auto.
Qed.
Lemma path_part_slash pa p : path_part pa p -> hd_error p = Some 47.
Proof. intros [|t p' Ht [D _]]; [reflexivity|]. inversion D; subst; reflexivity. Qed.
Lemma url_path_slash l u : bytes_ok l -> (hd_error l = Some 47 \/ ~ In 64 l) -> url_parse l = Ok u -> hd_error (u_path u) = Some 47.
Proof.
  intros Hl Hat H. apply url_exact in H; [|assumption..]. destruct H as [s h d pp n pa p qq q _ _ _ _ Hp _ _|pa p qq q Hp _ _]; exact (path_part_slash _ _ Hp).
Qed.

(** ** Ports *)
Lemma parts_text pa p qq q : path_part pa p -> query_part qq q -> (pa = [] -> qq = []) ->
  exists pa' q', path_text_ok pa' q' /\ pa ++ qq = opt_text [] pa' ++ opt_text [63] q' /\
    exists pd, decode_opt pa' = Ok pd /\ match pd with Some x => x | None => str "/" end = p /\ decode_opt q' = Ok q.
Proof.
  intros Hp Hq Hn. destruct Hp as [|t p Ht Hp].
  - rewrite (Hn eq_refl) in *. inversion Hq; subst. exists None, None. split; [split; exact I || reflexivity|]. split; [reflexivity|].
    exists None. repeat split.
  - exists (Some (47 :: t)). destruct Hq as [|x q Hx Hq].
    + exists None. split; [split; [exists t; auto|exact I]|]. split; [reflexivity|]. exists (Some p).
      split; [apply decode_opt_ok; exact Hp|]. split; reflexivity.
    + exists (Some x). split; [split; [exists t; auto|exact Hx]|]. split; [reflexivity|]. exists (Some p).
      split; [apply decode_opt_ok; exact Hp|]. split; [reflexivity|apply decode_opt_ok; exact Hq].
Qed.
Lemma url_default_port s h pa p qq q n : legal_scheme s -> Forall host_char h -> path_part pa p -> query_part qq q -> (pa = [] -> qq = []) ->
  (In (s, n) default_ports \/ ((forall m, ~ In (s, m) default_ports) /\ n = 0)) ->
  url_parse (scheme_str s ++ str "://" ++ h ++ pa ++ qq) = Ok (mkUrl s p None None (Some h) (Some n) q).
Proof.
  intros Hs Hh Hp Hq Hn Hd. destruct (parts_text _ _ _ _ Hp Hq Hn) as (pa' & q' & T & -> & pd & D1 & D2 & D3).
  change (scheme_str s ++ str "://" ++ h ++ opt_text [] pa' ++ opt_text [63] q') with (url_text (scheme_str s) None h None pa' q').
  rewrite url_parse_text; [|exact Hs|exact I|apply host_part, Hh|exact I|exact T].
  apply build_ok. exists None, None, (Some h), None, pd, q, n. split; [reflexivity|]. split; [reflexivity|].
  split; [cbn; rewrite host_token by exact Hh; reflexivity|]. split; [reflexivity|]. split; [apply default_port_spec, Hd|].
  split; [exact D1|]. split; [exact D3|]. rewrite <- D2. reflexivity.
Qed.
Lemma url_explicit_port s h t pa p qq q n : legal_scheme s -> Forall host_char h -> Forall host_char t -> path_part pa p -> query_part qq q -> (pa = [] -> qq = []) ->
  port_text t n ->
  url_parse (scheme_str s ++ str "://" ++ h ++ 58 :: t ++ pa ++ qq) = Ok (mkUrl s p None None (Some h) (Some n) q).
Proof.
  intros Hs Hh Ht Hp Hq Hn Hd. destruct (parts_text _ _ _ _ Hp Hq Hn) as (pa' & q' & T & -> & pd & D1 & D2 & D3).
  change (scheme_str s ++ str "://" ++ h ++ 58 :: t ++ opt_text [] pa' ++ opt_text [63] q') with (url_text (scheme_str s) None h (Some t) pa' q').
  rewrite url_parse_text; [|exact Hs|exact I|apply host_part, Hh|apply host_part, Ht|exact T].
  apply build_ok. exists None, None, (Some h), (Some t), pd, q, n. split; [reflexivity|]. split; [reflexivity|].
  split; [cbn; rewrite host_token by exact Hh; reflexivity|]. split; [cbn; rewrite host_token by exact Ht; reflexivity|]. split; [exact Hd|].
  split; [exact D1|]. split; [exact D3|]. rewrite <- D2. reflexivity.
Qed.
Lemma url_bad_port s h t pa p qq q : legal_scheme s -> Forall host_char h -> Forall host_char t -> path_part pa p -> query_part qq q -> (pa = [] -> qq = []) ->
  (forall n, ~ port_text t n) ->
  url_parse (scheme_str s ++ str "://" ++ h ++ 58 :: t ++ pa ++ qq) = Err (EUrl UrlInvalid).
Proof.
  intros Hs Hh Ht Hp Hq Hn Hd. destruct (parts_text _ _ _ _ Hp Hq Hn) as (pa' & q' & T & -> & pd & D1 & D2 & D3).
  change (scheme_str s ++ str "://" ++ h ++ 58 :: t ++ opt_text [] pa' ++ opt_text [63] q') with (url_text (scheme_str s) None h (Some t) pa' q').
  rewrite url_parse_text; [|exact Hs|exact I|apply host_part, Hh|apply host_part, Ht|exact T].
  unfold url_build. cbn [option_map s_user s_pass s_domain s_port s_path s_query decode_opt bind]. rewrite !host_token by assumption. cbn [bind].
  destruct (parse_uint 65536 t) as [n|] eqn:E; [|reflexivity]. apply parse_uint_spec in E. exfalso. exact (Hd n E).
Qed.
Lemma decimal_port ds n : decimal ds n -> (n < 65536 -> port_text ds n) /\ (65536 <= n -> forall m, ~ port_text ds m).
Proof.
  intros (N & D & ->). split.
  - intros L. split; [exact L|]. exists ds. auto.
  - intros L m (L2 & ds' & N' & D' & [<-|E] & ->); [lia|]. subst ds. apply Forall_inv in D. unfold digit in D. lia.
Qed.
Lemma empty_port n : ~ port_text [] n.
Proof. intros (_ & ds & N & _ & [<-|E] & _); [contradiction|discriminate]. Qed.

(** ** Host header *)
Lemma host_clash_free n : Forall tchar n -> clash_free n (str "host").
Proof.
  intros H i x y Hx Hy K. rewrite Forall_forall in H. apply nth_error_In in Hx, Hy. apply H, tchar_lt in Hx. cbn in Hy.
  unfold alpha, upper, lower. repeat destruct Hy as [<-|Hy]; try contradiction; lia.
Qed.
Lemma colon_name n t : Forall tchar n -> fold_name n <> 122 :: fold_name t -> bytes_ok t -> Forall tchar t ->
  (forall a, Forall tchar a -> clash_free a t) -> name_eq n (58 :: t) = false.
Proof.
  intros Hn Hz Bt Ht C. destruct (name_eq n (58 :: t)) eqn:E; [|reflexivity]. exfalso.
  destruct n as [|x n]; [discriminate|]. pose proof (Forall_inv Hn) as Hx. apply Forall_inv_tail in Hn.
  pose proof E as E0. apply name_eq_iff in E0; [|constructor; [pose proof (tchar_lt _ Hx); unfold byte_ok; lia|apply tchars_ok, Hn]|constructor; [unfold byte_ok; lia|exact Bt]].
  inversion E0 as [|? ? ? ? E1 E2]; subst. pose proof (tchar_lt _ Hx) as L.
  assert (x = 90).
  { destruct E1 as [->|[E1|E1]]; [|lia|lia]. exfalso. unfold tchar, alpha, upper, lower, digit in Hx. destruct Hx as [[Hx|Hx]|[Hx|Hx]]; try lia. cbn in Hx. lia. }
  subst x. apply Hz. unfold fold_name at 1. cbn [map]. change (fold_byte 90) with 122. f_equal.
  apply clash_name_iff; [exact Hn|exact Ht|apply C, Hn|]. apply name_eq_iff; [apply tchars_ok, Hn|exact Bt|exact E2].
Qed.
Lemma scheme_clash_free n : Forall tchar n -> clash_free n (str "scheme").
Proof.
  intros H i x y Hx Hy K. rewrite Forall_forall in H. apply nth_error_In in Hx, Hy. apply H, tchar_lt in Hx. cbn in Hy.
  unfold alpha, upper, lower. repeat destruct Hy as [<-|Hy]; try contradiction; lia.
Qed.
Lemma get_none h n : Forall (fun nv => name_eq (fst nv) n = false) h -> hm_get h n = None.
Proof. intros H. induction H as [|[n' v] h E _ IH]; [reflexivity|]. cbn [hm_get fst] in *. rewrite E. exact IH. Qed.
Lemma no_scheme_header hs : Forall (fun nv => Forall tchar (fst nv)) hs -> (forall n v, In (n, v) hs -> fold_name n <> str "zscheme") ->
  hm_get hs (str ":scheme") = None.
Proof.
  intros H Z. apply get_none. rewrite Forall_forall in *. intros [n v] Hin. cbn [fst].
  apply (colon_name n (str "scheme")); [apply (H _ Hin)|exact (Z _ _ Hin)|apply bytes_okb_ok; reflexivity|apply tchars_b; reflexivity|].
  apply scheme_clash_free.
Qed.
Lemma find_distinct hs n v : distinct_names hs -> Forall (fun nv => Forall tchar (fst nv)) hs -> In (n, v) hs ->
  forall k, fold_name n = k -> find (fun nv => beq (fold_name (fst nv)) k) hs = Some (n, v).
Proof.
  induction hs as [|[n' v'] hs IH]; intros D H Hin k Hk; [destruct Hin|]. cbn [find fst]. destruct D as [D1 D2].
  pose proof (Forall_inv H) as Hn'. apply Forall_inv_tail in H. cbn [fst] in *. destruct Hin as [E|Hin].
  - injection E as -> ->. rewrite Hk, beq_refl. reflexivity.
  - rewrite (proj2 (beq_neq _ _)); [apply IH; assumption|]. intros K. rewrite Forall_forall in D1, H. specialize (D1 _ Hin). cbn [fst] in D1.
    rewrite fold_name_eq in D1; [discriminate|apply tchars_ok, Hn'|apply tchars_ok, (H _ Hin)|congruence].
Qed.
Lemma host_found hs n v : distinct_names hs -> Forall (fun nv => Forall tchar (fst nv)) hs -> In (n, v) hs -> fold_name n = str "host" -> is_utf8 v ->
  hm_get_host hs = Some v.
Proof.
  intros D H Hin Hk Hu. unfold hm_get_host. rewrite get_find.
  - change (fold_name (str "host")) with (str "host"). rewrite (find_distinct hs n v D H Hin _ Hk). cbn [option_map snd].
    rewrite utf8_lossy_valid by (apply utf8_valid_iff, Hu). reflexivity.
  - apply tchars_b. reflexivity.
  - eapply Forall_impl; [|exact H]. cbn. intros nv K. split; [exact K|apply host_clash_free, K].
Qed.
Lemma origin_url t u : hd_error t = Some 47 -> url_form t u ->
  u_scheme u = ScNone /\ u_domain u = None /\ u_user u = None /\ u_pass u = None /\ u_port u = Some 0.
Proof.
  intros H F. revert H. destruct F as [s h d pp n pa p qq q Ls _ _ _ _ _ _|pa p qq q _ _ _]; [|auto].
  intros H. exfalso. destruct (legal_scheme_parse s [] Ls) as [_ (b & t & E & A)]. rewrite E in H. cbn [app hd_error] in H.
  assert (b = 47) by congruence. subst b. discriminate.
Qed.
Lemma host_header_url q m t v hs hn hv d n u body :
  In m known_methods -> m <> MConnect -> In v known_versions -> word t -> hd_error t = Some 47 -> url_form t u ->
  fields_ok hs -> distinct_names hs -> In (hn, hv) hs -> fold_name hn = str "host" -> is_utf8 hv -> host_parts hv d n ->
  (forall n v, In (n, v) hs -> fold_name n <> str "zscheme") ->
  req_parse q (request_text (method_str m) t (version_str v) hs ++ body) =
    (mkReq m v (mkUrl ScHttp (u_path u) None None (Some d) (Some n) (u_query u)) hs false,
     Ok (blen (request_text (method_str m) t (version_str v) hs))).
Proof.
  intros Hm Hc Hv Ht Hh Hu Hf Hd Hin Hn Hx Hp Hz.
  assert (TC : Forall (fun nv => Forall tchar (fst nv)) hs).
  { eapply Forall_impl; [|exact Hf]. intros nv [[_ K] _]. exact K. }
  apply request_accept; try assumption.
  destruct (origin_url t u Hh Hu) as (E1 & E2 & E3 & E4 & E5).
  assert (B : bytes_ok t).
  { destruct Ht as [_ Ht]. eapply Forall_impl; [|exact Ht]. unfold vchar, byte_ok. cbn. lia. }
  eapply wu_target; [exact Hc|apply url_exact; [exact B|left; exact Hh|exact Hu]| |].
  - eapply hf_host; [exact E2|eapply host_found; eassumption|exact Hp].
  - replace (mkUrl ScHttp (u_path u) None None (Some d) (Some n) (u_query u)) with (with_scheme (with_host u d n) ScHttp).
    + apply sf_hint; [exact E1|]. apply sh_none, no_scheme_header; assumption.
    + destruct u; cbn in *. subst. reflexivity.
Qed.
