(** Lemmas on M_Http1: methods, versions, status codes, message heads. *)
From Coq Require Import Ascii String NArith ZArith Lia Bool List ZifyBool ZifyNat ZifyN.
From Verif Require Import Base P_Base M_Std P_Std M_Helper S_Http1 P_Helper M_Header P_Header M_Url M_Http1 S_Http1Api.
Import ListNotations.
Local Open Scope N_scope.
Ltac Zify.zify_post_hook ::= Z.div_mod_to_equations.

(** ** Methods and versions *)
Lemma method_of_str_ok t m : method_of_str t = Ok m -> In m known_methods /\ t = method_str m.
Proof.
  unfold method_of_str. intros H.
  repeat match type of H with
  | (if beq t ?s then _ else _) = _ => destruct (beq t s) eqn:?E
  end; try discriminate; injection H as <-;
  match goal with K : beq t _ = true |- _ => apply beq_eq in K; subst t end;
  (split; [cbn; tauto|reflexivity]).
Qed.
Lemma method_of_str_known m : In m known_methods -> method_of_str (method_str m) = Ok m.
Proof. intros H. cbn in H. repeat (destruct H as [<-|H]; [reflexivity|]). destruct H. Qed.
Lemma method_of_str_err t : (forall m, In m known_methods -> t <> method_str m) ->
  method_of_str t = Err (EHttp MethodErr).
Proof.
  intros H. destruct (method_of_str t) as [m|e| |] eqn:E.
  - apply method_of_str_ok in E as [Hm ->]. exfalso. exact (H m Hm eq_refl).
  - unfold method_of_str in E. repeat match type of E with (if ?c then _ else _) = _ => destruct c end; congruence.
  - unfold method_of_str in E. repeat match type of E with (if ?c then _ else _) = _ => destruct c end; congruence.
  - unfold method_of_str in E. repeat match type of E with (if ?c then _ else _) = _ => destruct c end; congruence.
Qed.
Lemma method_word m : In m known_methods -> word (method_str m).
Proof.
  intros H. cbn in H. repeat (destruct H as [<-|H]; [split; [discriminate|repeat constructor; unfold vchar; cbn; lia]|]).
  destruct H.
Qed.
Lemma version_word v : In v known_versions -> word (version_str v).
Proof.
  intros H. cbn in H. repeat (destruct H as [<-|H]; [split; [discriminate|repeat constructor; unfold vchar; cbn; lia]|]).
  destruct H.
Qed.

Lemma word_token w : word w -> w <> [] /\ forallb is_token w = true.
Proof.
  intros [H1 H2]. split; [exact H1|]. apply (forallb_Forall is_token vchar); [apply token_vchar|exact H2].
Qed.
Lemma token_word w : w <> [] -> forallb is_token w = true -> word w.
Proof.
  intros H1 H2. split; [exact H1|]. apply (forallb_Forall is_token vchar) in H2; [exact H2|apply token_vchar].
Qed.
Lemma parse_token_word w b r : word w -> is_token b = false -> parse_token (w ++ b :: r) = Ok (w, b :: r).
Proof. intros H Hb. apply word_token in H as [H1 H2]. apply parse_token_by_app; assumption. Qed.

Lemma parse_method_app m b r : In m known_methods -> is_token b = false ->
  parse_method (method_str m ++ b :: r) = Ok (m, b :: r).
Proof.
  intros H Hb. unfold parse_method. rewrite parse_token_word by (try apply method_word; assumption).
  cbn [bind]. rewrite method_of_str_known by exact H. reflexivity.
Qed.
Lemma parse_method_ok l m r : parse_method l = Ok (m, r) ->
  In m known_methods /\ l = method_str m ++ r /\ exists b r', r = b :: r' /\ is_token b = false.
Proof.
  unfold parse_method. intros H. apply bind_ok in H as ([t r1] & H1 & H).
  apply bind_ok in H as (m0 & H2 & H). injection H as -> ->.
  apply parse_token_by_ok in H1 as (-> & _ & _ & Hr). apply method_of_str_ok in H2 as [Hm ->]. auto.
Qed.
Lemma parse_version_app v b r : In v known_versions -> is_token b = false ->
  parse_version (version_str v ++ b :: r) = Ok (v, b :: r).
Proof.
  intros H Hb. unfold parse_version. rewrite parse_token_word by (try apply version_word; assumption).
  cbn [bind]. cbn in H. repeat (destruct H as [<-|H]; [reflexivity|]). destruct H.
Qed.
Lemma parse_version_ok l v r : parse_version l = Ok (v, r) ->
  In v known_versions /\ l = version_str v ++ r /\ exists b r', r = b :: r' /\ is_token b = false.
Proof.
  unfold parse_version. intros H. apply bind_ok in H as ([t r1] & H1 & H).
  apply parse_token_by_ok in H1 as (-> & _ & _ & Hr).
  repeat match type of H with
  | (if beq t ?s then _ else _) = _ => destruct (beq t s) eqn:?E
  end; try discriminate; injection H as <- <-;
  match goal with K : beq t _ = true |- _ => apply beq_eq in K; subst t end;
  (split; [cbn; tauto|split; [reflexivity|exact Hr]]).
Qed.
Lemma parse_method_stable : stable parse_method.
Proof.
  apply (stable_bind parse_token); [apply parse_token_by_stable|intros t].
  apply stable_res. intros m. apply stable_ret.
Qed.
Lemma method_of_str_total t : returns (method_of_str t).
Proof.
  unfold method_of_str. repeat match goal with |- returns (if ?c then _ else _) => destruct c end;
  first [apply returns_ok|apply returns_err].
Qed.
Lemma parse_method_total : total_p parse_method.
Proof.
  intros l. apply returns_bind; [apply parse_token_by_total|intros [t r] _].
  apply returns_bind; [apply method_of_str_total|intros m _]. apply returns_ok.
Qed.
Lemma parse_version_stable : stable parse_version.
Proof.
  apply (stable_bind parse_token); [apply parse_token_by_stable|intros t].
  repeat apply stable_if; first [apply stable_ret|apply stable_err].
Qed.
Lemma parse_version_total : total_p parse_version.
Proof.
  intros l. apply returns_bind; [apply parse_token_by_total|intros [t r] _].
  repeat match goal with |- returns (if ?c then _ else _) => destruct c end;
  first [apply returns_ok|apply returns_err].
Qed.

(** ** Status codes *)
Definition all_codes : list N := map N.of_nat (seq 100 900).
Lemma all_codes_in c : 100 <= c <= 999 -> In c all_codes.
Proof.
  intros H. apply in_map_iff. exists (N.to_nat c). split; [lia|]. apply in_seq. lia.
Qed.
Lemma code_sweep (f : N -> bool) : forallb f all_codes = true -> forall c, 100 <= c <= 999 -> f c = true.
Proof. intros H c Hc. rewrite forallb_forall in H. apply H, all_codes_in, Hc. Qed.
Lemma status_str_dec c : 100 <= c <= 999 -> status_str c = dec_print c.
Proof.
  intros H. apply beq_eq. revert c H. apply code_sweep. vm_compute. reflexivity.
Qed.
Lemma status_str_from c : 100 <= c <= 999 -> status_from_bytes (status_str c) = Ok c.
Proof.
  intros H. assert (E : match status_from_bytes (status_str c) with Ok d => d =? c | _ => false end = true).
  { revert c H. apply code_sweep. vm_compute. reflexivity. }
  destruct (status_from_bytes (status_str c)); try discriminate. apply N.eqb_eq in E. congruence.
Qed.
Lemma status_from_ok l c : bytes_ok l -> status_from_bytes l = Ok c -> 100 <= c <= 999 /\ l = status_str c.
Proof.
  intros Hl H. destruct l as [|x [|y [|z [|? ?]]]]; try discriminate H.
  apply bytes_ok_cons in Hl as [Hx Hl]. apply bytes_ok_cons in Hl as [Hy Hl].
  apply bytes_ok_cons in Hl as [Hz _]. unfold status_from_bytes in H.
  assert (W : forall b, b < 256 -> wsub48 b <= 9 -> b = 48 + wsub48 b /\ 48 <= b).
  { intros b Hb. unfold wsub48. lia. }
  set (a := wsub48 x) in *. set (b := wsub48 y) in *. set (d := wsub48 z) in *.
  destruct ((a =? 0) || (9 <? a) || (9 <? b) || (9 <? d)) eqn:E; [discriminate|].
  injection H as <-. apply orb_false_iff in E as [E E4]. apply orb_false_iff in E as [E E3].
  apply orb_false_iff in E as [E1 E2]. apply N.eqb_neq in E1. apply N.ltb_ge in E2, E3, E4.
  destruct (W x Hx E2) as [Ex Lx]. destruct (W y Hy E3) as [Ey Ly]. destruct (W z Hz E4) as [Ez Lz].
  assert (R : 100 <= a * 100 + b * 10 + d <= 999) by lia. split; [exact R|].
  rewrite status_str_dec by exact R.
  fold a in Ex. fold b in Ey. fold d in Ez. rewrite Ex, Ey, Ez. clear Ex Ey Ez Lx Ly Lz.
  clearbody a b d. clear W Hx Hy Hz R x y z. symmetry.
  apply beq_eq.
  assert (G : forall n, n < 1000 -> 100 <= n ->
     beq (dec_print n) [48 + n / 100; 48 + n / 10 mod 10; 48 + n mod 10] = true).
  { intros n H1 H2. refine (code_sweep (fun n => beq (dec_print n) [48 + n / 100; 48 + n / 10 mod 10; 48 + n mod 10]) _ n _); [vm_compute; reflexivity|lia]. }
  apply beq_eq. rewrite (proj1 (beq_eq _ _) (G (a * 100 + b * 10 + d) ltac:(lia) ltac:(lia))).
  f_equal; [lia|]. f_equal; [lia|]. f_equal; lia.
Qed.
Lemma status_word c : 100 <= c <= 999 -> word (status_str c).
Proof.
  intros H. apply token_word.
  - intros E. pose proof (status_str_from c H) as K. rewrite E in K. discriminate.
  - revert c H. apply (code_sweep (fun c => forallb is_token (status_str c))). vm_compute. reflexivity.
Qed.
Lemma status_from_bytes_total l : returns (status_from_bytes l).
Proof.
  unfold status_from_bytes. destruct l as [|x [|y [|z [|? ?]]]]; try apply returns_err.
  cbv zeta. match goal with |- returns (if ?c then _ else _) => destruct c end; [apply returns_err|apply returns_ok].
Qed.
Lemma parse_status_stable : stable parse_status.
Proof.
  apply (stable_bind parse_token); [apply parse_token_by_stable|intros t].
  apply stable_res. intros m. apply stable_ret.
Qed.
Lemma parse_status_total : total_p parse_status.
Proof.
  intros l. apply returns_bind; [apply parse_token_by_total|intros [t r] _].
  apply returns_bind; [apply status_from_bytes_total|intros m _]. apply returns_ok.
Qed.
Lemma parse_status_app c b r : 100 <= c <= 999 -> is_token b = false ->
  parse_status (status_str c ++ b :: r) = Ok (c, b :: r).
Proof.
  intros H Hb. unfold parse_status. rewrite parse_token_word by (try apply status_word; assumption).
  cbn [bind]. rewrite status_str_from by exact H. reflexivity.
Qed.
Lemma parse_status_ok l c r : bytes_ok l -> parse_status l = Ok (c, r) ->
  100 <= c <= 999 /\ l = status_str c ++ r /\ exists b r', r = b :: r' /\ is_token b = false.
Proof.
  unfold parse_status. intros Hl H. apply bind_ok in H as ([t r1] & H1 & H).
  apply bind_ok in H as (m0 & H2 & H). injection H as -> ->.
  apply parse_token_by_ok in H1 as (-> & _ & _ & Hr). apply bytes_ok_app in Hl as [Hl _].
  apply status_from_ok in H2 as [Hm ->]; auto.
Qed.

(** ** Request heads *)
Lemma word_first w : word w -> exists b w', w = b :: w' /\ vchar b.
Proof.
  intros [H1 H2]. destruct w as [|b w]; [contradiction|]. inversion H2; subst. eauto.
Qed.
Lemma eol_first e : eol e -> exists b e', e = b :: e' /\ is_token b = false.
Proof. intros []; eexists _, _; split; reflexivity. Qed.

Definition req_done (m : method) (v : version) (u : url) (h : headers) : request := mkReq m v u h false.

Lemma try_ok {S A B} (s : S) (a : A) (k : A -> S * res B) : try_ s (Ok a) k = k a.
Proof. reflexivity. Qed.

Lemma req_parse_head q wire m t v hs r :
  request_head wire (method_str m) t (version_str v) hs ->
  In m known_methods -> In v known_versions ->
  req_parse_buffer q (wire ++ r) =
    try_ (mkReq m v (q_url q) (add_fields [] hs) false) (req_url_of m t (add_fields [] hs))
      (fun u => (mkReq m v u (add_fields [] hs) false, Ok r)).
Proof.
  intros H Hm Hv. remember (method_str m) as ms eqn:Ems. remember (version_str v) as vs eqn:Evs.
  destruct H as [bl ms i t j vs e fs hs Hbl Hms Ht Hvs He Hfs]. subst ms vs.
  destruct (word_first _ Hms) as (mb & mw & Em & Vm).
  destruct (word_first _ Ht) as (tb & tw & Et & Vt).
  destruct (word_first _ Hvs) as (vb & vw & Ev & Vv).
  destruct (eol_first _ He) as (eb & ew & Ee & Ve).
  unfold req_parse_buffer. napp.
  assert (E1 : skip_empty_lines (bl ++ method_str m ++ spaces (S i) ++ t ++ spaces (S j) ++ version_str v ++ e ++ fs ++ r)
             = Ok (tt, method_str m ++ spaces (S i) ++ t ++ spaces (S j) ++ version_str v ++ e ++ fs ++ r)).
  { rewrite Em. cbn [app]. apply skip_empty_lines_app; [exact Hbl|unfold vchar, CR, LF in *; lia..]. }
  rewrite E1, try_ok. cbv beta iota.
  change (spaces (S i)) with (SP :: spaces i) at 1. cbn [app].
  rewrite parse_method_app by (try reflexivity; exact Hm). rewrite try_ok. cbv beta iota zeta.
  assert (E2 : skip_spaces (SP :: spaces i ++ t ++ spaces (S j) ++ version_str v ++ e ++ fs ++ r)
             = Ok (tt, t ++ spaces (S j) ++ version_str v ++ e ++ fs ++ r)).
  { change (SP :: spaces i ++ ?x) with (spaces (S i) ++ x). rewrite Et. cbn [app].
    apply skip_spaces_app. unfold vchar, SP in *. lia. }
  rewrite E2, try_ok. cbv beta iota. change (spaces (S j)) with (SP :: spaces j) at 1. cbn [app].
  rewrite parse_token_word by (try reflexivity; exact Ht). rewrite try_ok. cbv beta iota.
  assert (E3 : skip_spaces (SP :: spaces j ++ version_str v ++ e ++ fs ++ r)
             = Ok (tt, version_str v ++ e ++ fs ++ r)).
  { change (SP :: spaces j ++ ?x) with (spaces (S j) ++ x). rewrite Ev. cbn [app].
    apply skip_spaces_app. unfold vchar, SP in *. lia. }
  rewrite E3, try_ok. cbv beta iota.
  assert (E4 : parse_version (version_str v ++ e ++ fs ++ r) = Ok (v, e ++ fs ++ r)).
  { rewrite Ee. cbn [app]. apply parse_version_app; assumption. }
  rewrite E4, try_ok. cbv beta iota zeta. rewrite skip_new_line_eol by exact He. rewrite try_ok. cbv beta iota.
  rewrite (parse_header_fields fs hs r Hfs). reflexivity.
Qed.

Lemma try_inv {S A B} (s : S) (x : res A) (k : A -> S * res B) s' b :
  try_ s x k = (s', Ok b) -> exists a, x = Ok a /\ k a = (s', Ok b).
Proof. destruct x; cbn; intros H; try discriminate. eauto. Qed.

Lemma req_head_sound l l1 l2 l3 l4 l5 l6 l7 m t v h r u1 u3 u5 u7 : bytes_ok l ->
  skip_empty_lines l = Ok (u1, l1) -> parse_method l1 = Ok (m, l2) -> skip_spaces l2 = Ok (u3, l3) ->
  parse_token l3 = Ok (t, l4) -> skip_spaces l4 = Ok (u5, l5) -> parse_version l5 = Ok (v, l6) ->
  skip_new_line l6 = Ok (u7, l7) -> parse_header l7 = (h, Ok r) ->
  exists wire hs, l = wire ++ r /\ In m known_methods /\ In v known_versions /\
    request_head wire (method_str m) t (version_str v) hs /\ h = add_fields [] hs.
Proof.
  intros Hl H1 H2 H3 H4 H5 H6 H7 H8.
  apply skip_empty_lines_ok in H1 as (bl & Hbl & ->).
  apply parse_method_ok in H2 as (Hm & -> & mb & mr & Em & Vm).
  apply skip_spaces_ok in H3 as (i & tb & tr & E3 & Et & Vt).
  apply parse_token_by_ok in H4 as (E4 & Ht & Tt & xb & xr & Ex & Vx).
  apply skip_spaces_ok in H5 as (j & vb & vr & E5 & Ev & Vv).
  apply parse_version_ok in H6 as (Hv & E6 & _).
  apply skip_new_line_ok in H7 as (e & He & E7).
  pose proof (token_word _ Ht Tt) as Wt.
  assert (Gap : forall i (w b : bytes) c x, c :: x = spaces i ++ w ++ b -> is_token c = false -> word w ->
                exists i', i = S i').
  { intros [|i'] w b c x E Hc Hw; [|eauto]. exfalso. destruct (word_first _ Hw) as (wb & ww & -> & V).
    cbn in E. injection E as -> _. apply token_vchar in V. congruence. }
  assert (exists i', i = S i') as [i' ->].
  { rewrite E4 in E3. rewrite Em in E3. exact (Gap _ _ _ _ _ E3 Vm Wt). }
  assert (exists j', j = S j') as [j' ->].
  { rewrite E6 in E5. rewrite Ex in E5. exact (Gap _ _ _ _ _ E5 Vx (version_word _ Hv)). }
  clear Gap Em Et Ex Ev. subst l6 l5 l4 l3 l2.
  assert (Ok7 : bytes_ok l7) by (repeat (apply bytes_ok_app in Hl as [_ Hl]); exact Hl).
  destruct (parse_header_sound l7 h r Ok7 H8) as (fs & hs & Hfs & -> & ->).
  exists (bl ++ method_str m ++ spaces (S i') ++ t ++ spaces (S j') ++ version_str v ++ e ++ fs), hs.
  split; [napp; reflexivity|]. split; [exact Hm|]. split; [exact Hv|]. split; [|reflexivity].
  constructor; auto using method_word, version_word.
Qed.
Lemma req_parse_sound q l q' r : bytes_ok l -> req_parse_buffer q l = (q', Ok r) ->
  exists wire m t v hs u, l = wire ++ r /\ In m known_methods /\ In v known_versions /\
    request_head wire (method_str m) t (version_str v) hs /\
    req_url_of m t (add_fields [] hs) = Ok u /\
    q' = mkReq m v u (add_fields [] hs) false.
Proof.
  intros Hl H. unfold req_parse_buffer in H.
  apply try_inv in H as ([u1 l1] & H1 & H). apply try_inv in H as ([m l2] & H2 & H).
  apply try_inv in H as ([u3 l3] & H3 & H). apply try_inv in H as ([t l4] & H4 & H).
  apply try_inv in H as ([u5 l5] & H5 & H). apply try_inv in H as ([v l6] & H6 & H).
  apply try_inv in H as ([u7 l7] & H7 & H). destruct (parse_header l7) as [h r7] eqn:H8.
  apply try_inv in H as (r8 & -> & H). apply try_inv in H as (u & H9 & H).
  injection H as Hq Hr. subst r8.
  destruct (req_head_sound _ _ _ _ _ _ _ _ _ _ _ _ _ _ _ _ _ Hl H1 H2 H3 H4 H5 H6 H7 H8)
    as (wire & hs & -> & Hm & Hv & Hh & ->).
  exists wire, m, t, v, hs, u. repeat (split; [solve [auto]|]). symmetry; exact Hq.
Qed.

(** ** Response heads *)
Lemma reason_first w : reason_ok w -> exists b w', w = b :: w' /\ b <> SP.
Proof.
  intros (H1 & _ & H3). destruct w as [|b w]; [contradiction|]. cbn in H3. exists b, w. split; [reflexivity|congruence].
Qed.
Lemma resp_parse_head p wire v c hs r :
  response_head wire (version_str v) (status_str c) hs ->
  In v known_versions -> 100 <= c <= 999 ->
  resp_parse_buffer p (wire ++ r) = (mkResp c v (add_fields [] hs) false, Ok r).
Proof.
  intros H Hv Hc. remember (version_str v) as vs eqn:Evs. remember (status_str c) as cs eqn:Ecs.
  destruct H as [bl vs i cs j rs e fs hs Hbl Hvs Hcs Hrs He Hfs]. subst vs cs.
  destruct (word_first _ Hvs) as (vb & vw & Ev & Vv).
  destruct (word_first _ Hcs) as (cb & cw & Ec & Vc).
  destruct (reason_first _ Hrs) as (rb & rw & Er & Vr).
  unfold resp_parse_buffer. napp.
  assert (E1 : skip_empty_lines (bl ++ version_str v ++ spaces (S i) ++ status_str c ++ spaces (S j) ++ rs ++ e ++ fs ++ r)
             = Ok (tt, version_str v ++ spaces (S i) ++ status_str c ++ spaces (S j) ++ rs ++ e ++ fs ++ r)).
  { rewrite Ev. cbn [app]. apply skip_empty_lines_app; [exact Hbl|unfold vchar, CR, LF in *; lia..]. }
  rewrite E1, try_ok. cbv beta iota.
  change (spaces (S i)) with (SP :: spaces i) at 1. cbn [app].
  rewrite parse_version_app by (try reflexivity; exact Hv). rewrite try_ok. cbv beta iota zeta.
  assert (E2 : skip_spaces (SP :: spaces i ++ status_str c ++ spaces (S j) ++ rs ++ e ++ fs ++ r)
             = Ok (tt, status_str c ++ spaces (S j) ++ rs ++ e ++ fs ++ r)).
  { change (SP :: spaces i ++ ?x) with (spaces (S i) ++ x). rewrite Ec. cbn [app].
    apply skip_spaces_app. unfold vchar, SP in *. lia. }
  rewrite E2, try_ok. cbv beta iota. change (spaces (S j)) with (SP :: spaces j) at 1. cbn [app].
  rewrite parse_status_app by (try reflexivity; exact Hc). rewrite try_ok. cbv beta iota zeta.
  assert (E3 : skip_spaces (SP :: spaces j ++ rs ++ e ++ fs ++ r) = Ok (tt, rs ++ e ++ fs ++ r)).
  { change (SP :: spaces j ++ ?x) with (spaces (S j) ++ x). rewrite Er. cbn [app].
    apply skip_spaces_app. exact Vr. }
  rewrite E3, try_ok. cbv beta iota.
  assert (E4 : parse_status_token (rs ++ e ++ fs ++ r) = Ok (rs, e ++ fs ++ r)).
  { destruct Hrs as (R1 & R2 & R3).
    assert (T : forallb is_status_token rs = true)
      by (apply (forallb_Forall is_status_token (fun b => 32 <= b <= 126)); [apply status_token_spec|exact R2]).
    destruct He as [->| ->]; cbn [app]; apply parse_token_by_app; auto. }
  rewrite E4, try_ok. cbv beta iota.
  rewrite skip_new_line_eol by (destruct He as [->| ->]; constructor). rewrite try_ok. cbv beta iota.
  rewrite (parse_header_fields fs hs r Hfs). reflexivity.
Qed.
Lemma resp_parse_sound p l p' r : bytes_ok l -> resp_parse_buffer p l = (p', Ok r) ->
  exists wire v c hs, l = wire ++ r /\ In v known_versions /\ 100 <= c <= 999 /\
    response_head wire (version_str v) (status_str c) hs /\
    p' = mkResp c v (add_fields [] hs) false.
Proof.
  intros Hl H. unfold resp_parse_buffer in H.
  apply try_inv in H as ([[] l1] & H1 & H). apply try_inv in H as ([v l2] & H2 & H).
  apply try_inv in H as ([[] l3] & H3 & H). apply try_inv in H as ([c l4] & H4 & H).
  apply try_inv in H as ([[] l5] & H5 & H). apply try_inv in H as ([rs l6] & H6 & H).
  apply try_inv in H as ([[] l7] & H7 & H). destruct (parse_header l7) as [h r7] eqn:H8.
  apply try_inv in H as (r8 & -> & H).
  injection H as Hq Hr. subst r8.
  apply skip_empty_lines_ok in H1 as (bl & Hbl & ->). apply bytes_ok_app in Hl as [_ Hl].
  apply parse_version_ok in H2 as (Hv & -> & vb & vr & Ev & Vv). apply bytes_ok_app in Hl as [_ Hl].
  apply skip_spaces_ok in H3 as (i & cb & cr & E3 & _ & _). rewrite E3 in Hl. apply bytes_ok_app in Hl as [_ Hl].
  apply parse_status_ok in H4 as (Hc & E4 & xb & xr & Ex & Vx); [|exact Hl].
  rewrite E4 in Hl. apply bytes_ok_app in Hl as [_ Hl].
  apply skip_spaces_ok in H5 as (j & rb & rr & E5 & Er & Vr). rewrite E5 in Hl. apply bytes_ok_app in Hl as [_ Hl].
  apply parse_token_by_ok in H6 as (E6 & Hrs & Trs & yb & yr & Ey & Vy).
  rewrite E6 in Hl. apply bytes_ok_app in Hl as [_ Hl].
  apply skip_new_line_ok in H7 as (e & He & E7). rewrite E7 in Hl. apply bytes_ok_app in Hl as [_ Hl].
  assert (He' : e = [CR; LF] \/ e = [LF]).
  { destruct He; auto. rewrite Ey in E7. injection E7 as -> _. discriminate Vy. }
  assert (Wr : reason_ok rs).
  { split; [exact Hrs|]. split.
    - apply (forallb_Forall is_status_token (fun b => 32 <= b <= 126)) in Trs; [exact Trs|apply status_token_spec].
    - destruct rs as [|b rs]; [contradiction|]. cbn. rewrite E6 in Er. injection Er as -> _. congruence. }
  assert (exists i', i = S i') as [i' ->].
  { destruct i as [|i']; [|eauto]. exfalso. destruct (word_first _ (status_word c Hc)) as (wb & ww & E & V).
    rewrite E4, E, Ev in E3. cbn in E3. injection E3 as -> _. apply token_vchar in V. congruence. }
  assert (exists j', j = S j') as [j' ->].
  { destruct j as [|j']; [|eauto]. exfalso. destruct rs as [|b rs]; [contradiction|].
    rewrite E6, Ex in E5. cbn in E5. injection E5 as -> _.
    destruct Wr as (_ & K & K2). apply Forall_inv in K. cbn in K2.
    assert (b <> SP) by congruence. unfold is_token, SP in *. lia. }
  destruct (parse_header_sound l7 h r Hl H8) as (fs & hs & Hfs & -> & ->).
  exists (bl ++ version_str v ++ spaces (S i') ++ status_str c ++ spaces (S j') ++ rs ++ e ++ fs), v, c, hs.
  split; [rewrite E3, E4, E5, E6, E7; napp; reflexivity|]. split; [exact Hv|]. split; [exact Hc|].
  split; [|symmetry; exact Hq].
  constructor; auto using status_word, version_word.
Qed.

(** ** Stability and totality of the head parsers *)
Definition kstable {S} (x : bytes) (a b : S * res bytes) : Prop :=
  snd a = partial \/ b = (fst a, ext_rest x (snd a)).
Lemma try_stable {S A} (s : S) (p : bytes -> res (A * bytes)) (k : A * bytes -> S * res bytes) l x :
  stable p -> (forall a r, kstable x (k (a, r)) (k (a, r ++ x))) ->
  kstable x (try_ s (p l) k) (try_ s (p (l ++ x)) k).
Proof.
  intros Hp Hk. destruct (Hp l x) as [H|H].
  - left. rewrite H. reflexivity.
  - rewrite H. destruct (p l) as [[a r]|e| |]; cbn [ext try_]; [apply Hk|right; reflexivity..].
Qed.
Lemma req_parse_buffer_stable q l x : kstable x (req_parse_buffer q l) (req_parse_buffer q (l ++ x)).
Proof.
  unfold req_parse_buffer. cbv zeta.
  apply (try_stable _ skip_empty_lines); [apply skip_empty_lines_stable|intros u1 l1].
  apply (try_stable _ parse_method); [apply parse_method_stable|intros m l2].
  apply (try_stable _ skip_spaces); [apply skip_spaces_stable|intros u2 l3].
  apply (try_stable _ parse_token); [apply parse_token_by_stable|intros t l4].
  apply (try_stable _ skip_spaces); [apply skip_spaces_stable|intros u3 l5].
  apply (try_stable _ parse_version); [apply parse_version_stable|intros v l6].
  apply (try_stable _ skip_new_line); [apply skip_new_line_stable|intros u4 l7].
  destruct (parse_header_stable l7 x) as [E|E].
  - left. destruct (parse_header l7) as [h r]. cbn [snd] in E. subst r. reflexivity.
  - rewrite E. destruct (parse_header l7) as [h [r|e| |]]; cbn [fst snd ext_rest try_]; [|right; reflexivity..].
    right. destruct (req_url_of m t h); reflexivity.
Qed.
Lemma resp_parse_buffer_stable p l x : kstable x (resp_parse_buffer p l) (resp_parse_buffer p (l ++ x)).
Proof.
  unfold resp_parse_buffer. cbv zeta.
  apply (try_stable _ skip_empty_lines); [apply skip_empty_lines_stable|intros u1 l1].
  apply (try_stable _ parse_version); [apply parse_version_stable|intros v l2].
  apply (try_stable _ skip_spaces); [apply skip_spaces_stable|intros u2 l3].
  apply (try_stable _ parse_status); [apply parse_status_stable|intros c l4].
  apply (try_stable _ skip_spaces); [apply skip_spaces_stable|intros u3 l5].
  apply (try_stable _ parse_status_token); [apply parse_token_by_stable|intros t l6].
  apply (try_stable _ skip_new_line); [apply skip_new_line_stable|intros u4 l7].
  destruct (parse_header_stable l7 x) as [E|E].
  - left. destruct (parse_header l7) as [h r]. cbn [snd] in E. subst r. reflexivity.
  - rewrite E. destruct (parse_header l7) as [h [r|e| |]]; cbn [fst snd ext_rest try_]; right; reflexivity.
Qed.

(** Consumption. *)
Lemma req_parse_buffer_suffix q l q' r : req_parse_buffer q l = (q', Ok r) -> (length r < length l)%nat.
Proof.
  intros H. unfold req_parse_buffer in H.
  apply try_inv in H as ([[] l1] & H1 & H). apply try_inv in H as ([m l2] & H2 & H).
  apply try_inv in H as ([[] l3] & H3 & H). apply try_inv in H as ([t l4] & H4 & H).
  apply try_inv in H as ([[] l5] & H5 & H). apply try_inv in H as ([v l6] & H6 & H).
  apply try_inv in H as ([[] l7] & H7 & H). destruct (parse_header l7) as [h r7] eqn:H8.
  apply try_inv in H as (r8 & -> & H). apply try_inv in H as (u & H9 & H).
  injection H as Hq Hr. subst r8.
  apply skip_empty_lines_ok in H1 as (bl & _ & ->).
  apply parse_method_ok in H2 as (_ & -> & _).
  apply skip_spaces_len in H3. apply parse_token_by_len in H4. apply skip_spaces_len in H5.
  apply parse_version_ok in H6 as (_ & -> & _). apply skip_new_line_len in H7.
  assert (length r <= length l7)%nat.
  { clear - H8. unfold parse_header in H8. revert H8. generalize (S (length l7)) as f. generalize (@nil (bytes * bytes)) as h0.
    intros h0 f. revert h0 l7. induction f as [|f IH]; intros h0 l H; [discriminate|].
    destruct l as [|b l]; [discriminate|]. cbn [parse_header_loop] in H.
    destruct (b =? 13).
    { injection H as _ H. apply bind_ok in H as ([[] l2] & H1 & H). injection H as ->. apply expect_ok in H1. subst. cbn; lia. }
    destruct (b =? 10); [injection H as _ <-; cbn; lia|].
    destruct (parse_header_line (b :: l)) as [[[n v] r1]|e| |] eqn:E; try discriminate.
    apply IH in H. apply parse_header_line_len in E. lia. }
  rewrite !app_length in *. lia.
Qed.

(** Totality of URL parsing. *)
Lemma scheme_of_str_total v : returns (scheme_of_str v).
Proof.
  unfold scheme_of_str. repeat match goal with |- returns (if ?c then _ else _) => destruct c end;
  first [apply returns_ok|apply returns_err].
Qed.
Lemma parse_scheme_total : total_p parse_scheme.
Proof.
  intros l. apply returns_bind; [apply parse_token_by_total|intros [t r] _].
  destruct (64 <? blen t); [apply returns_err|].
  apply returns_bind; [apply scheme_of_str_total|intros s _; apply returns_ok].
Qed.
Lemma pct_decode_total l : returns (pct_decode l).
Proof.
  assert (G : forall n l, (length l <= n)%nat -> returns (pct_decode l)).
  { induction n as [|n IH]; intros [|b k] Hk; cbn [length] in Hk; try lia; try apply returns_ok.
    cbn [pct_decode]. destruct (b =? 37).
    - destruct k as [|a k]; [apply returns_err|]. destruct k as [|c k]; [apply returns_err|].
      destruct (convert_hex a); [|apply returns_err]. destruct (convert_hex c); [|apply returns_err].
      cbn [length] in Hk. apply returns_bind; [apply IH; lia|intros; apply returns_ok].
    - apply returns_bind; [apply IH; lia|intros; apply returns_ok]. }
  apply (G (length l)). lia.
Qed.
Lemma parse_url_token_total l : returns (parse_url_token l).
Proof.
  apply returns_bind; [apply pct_decode_total|intros r _]. destruct (utf8_valid r); [apply returns_ok|apply returns_err].
Qed.
Lemma decode_opt_total o : returns (decode_opt o).
Proof.
  destruct o; [|apply returns_ok]. apply returns_bind; [apply parse_url_token_total|intros; apply returns_ok].
Qed.
Lemma url_step_total hd s b : returns (url_step hd s b).
Proof.
  unfold url_step. destruct s.
  repeat match goal with |- returns (if ?c then _ else _) => destruct c end;
  first [apply returns_ok|apply returns_err].
Qed.
Lemma url_loop_total hd l : forall s, returns (url_loop hd s l).
Proof.
  induction l as [|b l IH]; intros s; [apply returns_ok|]. cbn [url_loop].
  apply returns_bind; [apply url_step_total|intros; apply IH].
Qed.
Lemma url_build_total sc s : returns (url_build sc s).
Proof.
  unfold url_build.
  do 4 (apply returns_bind; [apply decode_opt_total|intros ? _]).
  apply returns_bind.
  { match goal with |- returns (match ?x with _ => _ end) => destruct x end; [|apply returns_ok].
    destruct (parse_uint _ _); [apply returns_ok|apply returns_err]. }
  intros ? _. do 2 (apply returns_bind; [apply decode_opt_total|intros ? _]). apply returns_ok.
Qed.
Lemma url_parse_total l : returns (url_parse l).
Proof.
  unfold url_parse. destruct l as [|b l]; [apply returns_err|].
  destruct (is_alpha b).
  - apply returns_bind; [apply parse_scheme_total|intros [? ?] _].
    do 3 (apply returns_bind; [apply expect_total|intros [? ?] _]).
    apply returns_bind; [apply url_loop_total|intros; apply url_build_total].
  - destruct (b =? 47); [|apply returns_err].
    apply returns_bind; [apply url_loop_total|intros; apply url_build_total].
Qed.
Lemma parse_connect_total u h : returns (parse_connect_by_host u h).
Proof.
  unfold parse_connect_by_host. destruct u. destruct (split_on 58 h) as [|d [|p [|? ?]]];
    try apply returns_err; try apply returns_ok.
  destruct (parse_uint 65536 p); [apply returns_ok|apply returns_err].
Qed.
Lemma req_url_of_total m t h : returns (req_url_of m t h).
Proof.
  assert (G : returns (req_complete_url t h)).
  { apply returns_bind; [apply url_parse_total|intros u _].
    apply returns_bind.
    - destruct (is_some (u_domain u)); [apply returns_ok|].
      destruct (hm_get_host h); [apply parse_connect_total|apply returns_ok].
    - intros [] _. apply returns_ok. }
  unfold req_url_of. destruct m; try exact G. apply parse_connect_total.
Qed.
Lemma try_returns {S A B} (s : S) (m : res A) (k : A -> S * res B) :
  returns m -> (forall a, m = Ok a -> returns (snd (k a))) -> returns (snd (try_ s m k)).
Proof.
  intros [H1 H2] Hk. destruct m as [a|e| |]; cbn [try_]; try contradiction.
  - apply Hk. reflexivity.
  - apply returns_err.
Qed.
Lemma req_parse_buffer_total q l : returns (snd (req_parse_buffer q l)).
Proof.
  unfold req_parse_buffer. cbv zeta.
  apply try_returns; [apply skip_empty_lines_total|intros [u1 l1] _].
  apply try_returns; [apply parse_method_total|intros [m l2] _].
  apply try_returns; [apply skip_spaces_total|intros [u2 l3] _].
  apply try_returns; [apply parse_token_by_total|intros [t l4] _].
  apply try_returns; [apply skip_spaces_total|intros [u3 l5] _].
  apply try_returns; [apply parse_version_total|intros [v l6] _].
  apply try_returns; [apply skip_new_line_total|intros [u4 l7] _].
  pose proof (parse_header_total l7) as T. destruct (parse_header l7) as [h r]. cbn [snd] in T.
  apply try_returns; [exact T|intros r' _].
  apply try_returns; [apply req_url_of_total|intros u _]. apply returns_ok.
Qed.
Lemma resp_parse_buffer_total p l : returns (snd (resp_parse_buffer p l)).
Proof.
  unfold resp_parse_buffer. cbv zeta.
  apply try_returns; [apply skip_empty_lines_total|intros [u1 l1] _].
  apply try_returns; [apply parse_version_total|intros [v l6] _].
  apply try_returns; [apply skip_spaces_total|intros [u2 l3] _].
  apply try_returns; [apply parse_status_total|intros [m l2] _].
  apply try_returns; [apply skip_spaces_total|intros [u3 l5] _].
  apply try_returns; [apply parse_token_by_total|intros [t l4] _].
  apply try_returns; [apply skip_new_line_total|intros [u4 l7] _].
  pose proof (parse_header_total l7) as T. destruct (parse_header l7) as [h r]. cbn [snd] in T.
  apply try_returns; [exact T|intros r' _]. apply returns_ok.
Qed.

(** ** Reusing an object *)
Lemma try_state {S A B} (s s' : S) (m : res A) (k k' : A -> S * res B) :
  (forall a, m = Ok a -> snd (k a) = snd (k' a) /\ (forall b, snd (k a) = Ok b -> fst (k a) = fst (k' a))) ->
  snd (try_ s m k) = snd (try_ s' m k') /\
  (forall b, snd (try_ s m k) = Ok b -> fst (try_ s m k) = fst (try_ s' m k')).
Proof.
  intros H. destruct m as [a|e| |]; cbn [try_ snd fst].
  - apply H. reflexivity.
  - split; [reflexivity|discriminate].
  - split; [reflexivity|discriminate].
  - split; [reflexivity|discriminate].
Qed.
Lemma req_parse_buffer_fresh q q' l :
  snd (req_parse_buffer q l) = snd (req_parse_buffer q' l) /\
  (forall r, snd (req_parse_buffer q l) = Ok r -> fst (req_parse_buffer q l) = fst (req_parse_buffer q' l)).
Proof.
  unfold req_parse_buffer. cbv zeta.
  do 7 (apply try_state; intros [? ?] _). destruct (parse_header _) as [h r].
  apply try_state; intros r' _. apply try_state; intros uu _. split; reflexivity.
Qed.
Lemma resp_parse_buffer_fresh p p' l :
  snd (resp_parse_buffer p l) = snd (resp_parse_buffer p' l) /\
  (forall r, snd (resp_parse_buffer p l) = Ok r -> fst (resp_parse_buffer p l) = fst (resp_parse_buffer p' l)).
Proof.
  unfold resp_parse_buffer. cbv zeta.
  do 7 (apply try_state; intros [? ?] _). destruct (parse_header _) as [h r].
  apply try_state; intros r' _. split; reflexivity.
Qed.
