(** Proofs for S_Exactly.v. *)
From Coq Require Import Ascii String NArith ZArith Lia Bool List ZifyBool ZifyNat ZifyN.
From Verif Require Import Base S_Utf8 P_Base M_Std P_Std M_Helper M_Header M_Url M_Http1 S_Http1Api S_Hex S_Map S_Url P_Helper P_Header P_Http1 P_Msg P_Chunk P_Map P_Url P_UrlForm M_Build P_Build3
  M_Hpack S_Hpack S_HpackApi P_HpackTable P_HpackSync S_Near P_Near S_WriteAll P_WriteAll S_RfcFrames P_RfcFrames P_H2 S_Http1 S_Exactly.
Import ListNotations.
Local Open Scope N_scope.

(** ** C56 *)
Lemma names_scheme_iff n : Forall tchar n -> (name_eq n (str ":scheme") = true <-> names_scheme n).
Proof.
  intros Hn. change (str ":scheme") with (58 :: str "scheme").
  assert (Bt : bytes_ok (str "scheme")) by (apply bytes_okb_ok; reflexivity). assert (Tt : Forall tchar (str "scheme")) by (apply tchars_b; reflexivity).
  split.
  - intros E. destruct n as [|x n]; [discriminate|]. pose proof (Forall_inv Hn) as Hx. apply Forall_inv_tail in Hn.
    apply name_eq_iff in E; [|constructor; [pose proof (tchar_lt _ Hx); unfold byte_ok; lia|apply tchars_ok, Hn]|constructor; [unfold byte_ok; lia|exact Bt]].
    inversion E as [|? ? ? ? E1 E2]; subst. pose proof (tchar_lt _ Hx) as L.
    assert (x = 90).
    { destruct E1 as [->|[E1|E1]]; [|lia|lia]. exfalso. unfold tchar, alpha, upper, lower, digit in Hx. destruct Hx as [[Hx|Hx]|[Hx|Hx]]; try lia. cbn in Hx. lia. }
    subst x. exists n. split; [reflexivity|]. change (str "scheme") with (fold_name (str "scheme")).
    apply clash_name_iff; [exact Hn|exact Tt|apply scheme_clash_free, Hn|]. apply name_eq_iff; [apply tchars_ok, Hn|exact Bt|exact E2].
  - intros (t & -> & F). apply Forall_inv_tail in Hn. change (str "scheme") with (fold_name (str "scheme")) in F.
    apply clash_name_iff in F; [|exact Hn|exact Tt|apply scheme_clash_free, Hn]. apply name_eq_iff in F; [|apply tchars_ok, Hn|exact Bt].
    apply name_eq_iff; [constructor; [unfold byte_ok; lia|apply tchars_ok, Hn]|constructor; [unfold byte_ok; lia|exact Bt]|].
    constructor; [lia|exact F].
Qed.
Lemma scheme_field_found hs n w : Forall (fun nv => Forall tchar (fst nv)) hs -> distinct_names hs -> In (n, w) hs -> names_scheme n -> hm_get hs (str ":scheme") = Some w.
Proof.
  intros T D I Z. induction hs as [|[n' w'] hs IH]; [destruct I|]. cbn [hm_get]. destruct D as [D1 D2]. pose proof (Forall_inv T) as Tn. apply Forall_inv_tail in T. cbn [fst] in *.
  destruct (name_eq n' (str ":scheme")) eqn:E.
  - apply names_scheme_iff in E; [|exact Tn]. destruct I as [[= -> ->]|I]; [reflexivity|]. exfalso. rewrite Forall_forall in D1, T. specialize (D1 _ I). specialize (T _ I). cbn [fst] in *.
    destruct E as (t & -> & F). destruct Z as (t' & -> & F'). rewrite fold_name_eq in D1; [discriminate|apply tchars_ok, Tn|apply tchars_ok, T|].
    unfold fold_name in *. cbn [map]. congruence.
  - destruct I as [[= -> ->]|I]; [|exact (IH T D2 I)]. exfalso. apply (names_scheme_iff n Tn) in Z. congruence.
Qed.
Lemma scheme_field_none hs : Forall (fun nv => Forall tchar (fst nv)) hs -> (forall n w, In (n, w) hs -> ~ names_scheme n) -> hm_get hs (str ":scheme") = None.
Proof.
  intros T Z. apply get_none. rewrite Forall_forall in *. intros [n w] I. specialize (T _ I). cbn [fst] in *. destruct (name_eq n (str ":scheme")) eqn:E; [|reflexivity].
  apply names_scheme_iff in E; [|exact T]. destruct (Z _ _ I E).
Qed.
Lemma names_scheme_dec n : {names_scheme n} + {~ names_scheme n}.
Proof.
  destruct n as [|x n]; [right; intros (t & E & _); discriminate E|]. destruct (N.eq_dec x 90) as [->|X]; [|right; intros (t & [= E _] & _); congruence].
  destruct (beq (fold_name n) (str "scheme")) eqn:B.
  - left. exists n. split; [reflexivity|apply beq_eq, B].
  - right. intros (t & [= <-] & F). apply beq_eq in F. congruence.
Qed.
Lemma scheme_http v : (exists s, scheme_of_str v = Ok s /\ s <> ScHttp) <-> ~ (v = str "http" \/ 64 < blen v).
Proof.
  unfold scheme_of_str. destruct (N.ltb_spec 64 (blen v)) as [L|L].
  - split; [intros (s & E & _); discriminate E|tauto].
  - destruct (beq v (str "http")) eqn:B.
    + apply beq_eq in B. split; [intros (s & [= <-] & K); congruence|tauto].
    + apply beq_neq in B. split; [intros _ [K|K]; [congruence|lia]|]. intros _.
      repeat (destruct (beq v _); [eexists; split; [reflexivity|discriminate]|]). eexists. split; [reflexivity|discriminate].
Qed.
Lemma host_scheme_exact q m t v hs hn hv d n u body :
  In m known_methods -> m <> MConnect -> In v known_versions -> word t -> hd_error t = Some 47 -> url_form t u ->
  fields_ok hs -> distinct_names hs -> In (hn, hv) hs -> fold_name hn = str "host" -> is_utf8 hv -> host_parts hv d n ->
  (req_parse q (request_text (method_str m) t (version_str v) hs ++ body) =
    (mkReq m v (mkUrl ScHttp (u_path u) None None (Some d) (Some n) (u_query u)) hs false,
     Ok (blen (request_text (method_str m) t (version_str v) hs))) <-> forall n w, In (n, w) hs -> names_scheme n -> scheme_kept w).
Proof.
  intros Hm Hc Hv Ht Hh Hu Hf Hd Hin Hn Hx Hp.
  assert (TC : Forall (fun nv => Forall tchar (fst nv)) hs).
  { eapply Forall_impl; [|exact Hf]. intros nv [[_ K] _]. exact K. }
  assert (R : forall s, scheme_hint hs s -> req_parse q (request_text (method_str m) t (version_str v) hs ++ body) =
    (mkReq m v (mkUrl s (u_path u) None None (Some d) (Some n) (u_query u)) hs false, Ok (blen (request_text (method_str m) t (version_str v) hs)))).
  { intros s H. apply request_accept; try assumption.
    destruct (origin_url t u Hh Hu) as (E1 & E2 & E3 & E4 & E5).
    assert (B : bytes_ok t).
    { destruct Ht as [_ Ht]. eapply Forall_impl; [|exact Ht]. unfold vchar, byte_ok. cbn. lia. }
    eapply wu_target; [exact Hc|apply url_exact; [exact B|left; exact Hh|exact Hu]| |].
    - eapply hf_host; [exact E2|eapply host_found; eassumption|exact Hp].
    - replace (mkUrl s (u_path u) None None (Some d) (Some n) (u_query u)) with (with_scheme (with_host u d n) s).
      + apply sf_hint; [exact E1|exact H].
      + destruct u; cbn in *. subst. reflexivity. }
  split.
  - intros E k w I Z. destruct (scheme_http (utf8_lossy w)) as [_ H]. unfold scheme_kept.
    assert (DEC : (utf8_lossy w = str "http" \/ 64 < blen (utf8_lossy w)) \/ ~ (utf8_lossy w = str "http" \/ 64 < blen (utf8_lossy w))).
    { destruct (beq (utf8_lossy w) (str "http")) eqn:B; [apply beq_eq in B; tauto|apply beq_neq in B]. destruct (N.ltb_spec 64 (blen (utf8_lossy w))); [tauto|right; intros [K|K]; [congruence|lia]]. }
    destruct DEC as [D|D]; [exact D|]. exfalso. destruct (H D) as (s & S & NS).
    rewrite (R s) in E; [injection E as E; congruence|]. exact (sh_some hs w s (scheme_field_found hs k w TC Hd I Z) S).
  - intros K. apply R. destruct (hm_get hs (str ":scheme")) as [w|] eqn:G; [|exact (sh_none hs G)].
    assert (I : exists k, In (k, w) hs /\ names_scheme k).
    { clear -G TC. induction hs as [|[k x] hs IH]; [discriminate|]. cbn [hm_get] in G. pose proof (Forall_inv TC) as T1. cbn [fst] in T1. destruct (name_eq k (str ":scheme")) eqn:E.
      - injection G as ->. exists k. split; [left; reflexivity|apply names_scheme_iff; assumption].
      - destruct (IH (Forall_inv_tail TC) G) as (k' & I & Z). exists k'. split; [right; exact I|exact Z]. }
    destruct I as (k & I & Z). destruct (K k w I Z) as [E|E].
    + apply (sh_some hs w ScHttp G). rewrite E. reflexivity.
    + apply (sh_bad hs w G). intros s. unfold scheme_of_str. destruct (N.ltb_spec 64 (blen (utf8_lossy w))); [discriminate|lia].
Qed.

(** ** C63 *)
Lemma encode_rfc_exact max dyn fs t b peer' : table_typed max dyn -> Forall sendable fs -> encode_headers (table_of max dyn) fs = Ok (t, b) ->
  (rfc_block max (map lower_field dyn) b (map lower_field fs) peer' <-> fields_sent_fine max dyn fs /\ peer' = map lower_field (hi_to_vec t)).
Proof.
  intros T S E. apply fields_all in E; [|exact T|eapply Forall_impl; [|exact S]; intros f (A & B & _); split; [eapply Forall_impl; [|exact A]; intros x; unfold byte_ok; lia|exact B]].
  destruct E as (dyn' & -> & W). rewrite (block_meant max dyn fs b dyn' W S peer'). reflexivity.
Qed.

(** ** C73 *)
Lemma isize_storage v : (forall z, value_isize_stand v = Ok z <-> value_isize v = Ok z) <->
  (forall z, lax_signed v z -> (- 2 ^ 63 < z < 2 ^ 63)%Z -> std_signed v z) /\
  (forall w n, v = 43 :: w -> decimal w n -> 2 ^ 63 <= n) /\ (forall w, v = 45 :: w -> ~ decimal w (2 ^ 63)).
Proof.
  split.
  - intros H. split; [|split].
    + intros z L R. assert (E : value_isize v = Ok z) by (apply isize_exact; auto). apply H, isize_stand_exact in E. apply E.
    + intros w n -> D. destruct (N.ltb_spec n (2 ^ 63)) as [L|L]; [|exact L]. exfalso.
      assert (E : value_isize_stand (43 :: w) = Ok (Z.of_N n)) by (apply isize_stand_exact; split; [apply ss_plus, D|lia]).
      apply H in E. discriminate E.
    + intros w -> D. assert (E : value_isize_stand (45 :: w) = Ok (- Z.of_N (2 ^ 63))%Z) by (apply isize_stand_exact; split; [apply ss_minus, D|lia]).
      apply H, isize_exact in E. lia.
  - intros (A & B & C) z. split.
    + intros E. apply isize_literal; [exact E| |].
      * intros K. destruct v as [|x w]; [discriminate K|]. injection K as ->. apply isize_stand_exact in E as [E R]. inversion E as [? n D|? n D|]; subst.
        -- destruct D as (_ & D & _). inversion D as [|? ? K _]. unfold digit in K. lia.
        -- specialize (B w n eq_refl D). lia.
      * apply isize_stand_exact in E as [E R]. destruct (Z.eq_dec z (- 2 ^ 63)) as [->|K]; [|lia]. exfalso. inversion E as [? n D K|? n D K|? n D K]; subst; try lia.
        apply (C _ eq_refl). replace (2 ^ 63) with n by lia. exact D.
    + intros E. apply isize_exact in E as [E R]. apply isize_stand_exact. split; [apply A; assumption|lia].
Qed.

(** ** C31 *)
Lemma beginning_sent a b : beginning a b -> incl (concat (S_HpackApi.sent a)) (concat (S_HpackApi.sent b)).
Proof.
  intros B x I. destruct B as [a b|a fs gs b]; rewrite !sent_app, !concat_app in *; cbn [S_HpackApi.sent concat] in *; rewrite ?app_nil_r in *; rewrite !in_app_iff in *; tauto.
Qed.
Lemma beginning_near m a b : beginning a b -> all_near m b -> all_near m a.
Proof.
  unfold all_near. intros B H. destruct B as [a b|a fs gs b]; rewrite near_from_app in *; [tauto|]. destruct H as [H1 H2]. split; [exact H1|]. cbn [near_from] in *.
  destruct H2 as [H2 _]. rewrite near_block_app in H2. tauto.
Qed.
Lemma pool_incl a b : incl a b -> pool_ok b -> pool_ok a.
Proof. intros I [S C]. split; [rewrite Forall_forall in *; auto|auto]. Qed.
Lemma near_prefixes m evs : pool_ok (concat (S_HpackApi.sent evs)) -> (all_near m evs <-> forall a, beginning a evs -> arrives m a).
Proof.
  intros P. split.
  - intros N a B. destruct (sync_near m a (pool_incl _ _ (beginning_sent a evs B) P) (beginning_near m a evs B N)) as (te & td & E & _). exists te, td. exact E.
  - revert P. induction evs as [|e evs IH] using rev_ind; intros P H; [exact I|].
    assert (N : all_near m evs).
    { apply IH.
      - eapply pool_incl; [|exact P]. apply beginning_sent. constructor.
      - intros a B. apply H. destruct B as [a b|a fs gs b]; rewrite <- app_assoc; [constructor|]. cbn [app]. constructor. }
    destruct e as [gs|k]; [|unfold all_near; rewrite near_from_app; cbn [near_from]; auto].
    assert (G : forall fs hs, gs = fs ++ hs -> all_near m (evs ++ [EvBlock fs])).
    { induction fs as [|f fs IHf] using rev_ind; intros hs E.
      - unfold all_near. rewrite near_from_app. cbn [near_from near_block]. auto.
      - rewrite <- app_assoc in E. specialize (IHf ([f] ++ hs) E). rewrite app_assoc in E. subst gs.
        assert (A : arrives m (evs ++ [EvBlock (fs ++ [f])])) by (apply H; constructor).
        assert (Q : pool_ok (concat (S_HpackApi.sent evs) ++ fs ++ [f])).
        { eapply pool_incl; [|exact P]. rewrite sent_app, concat_app. cbn [S_HpackApi.sent concat]. rewrite app_nil_r. intros x. rewrite !in_app_iff. tauto. }
        assert (A' : exists te td, exchange (hi_with_size m) (hi_with_size m) (evs ++ [EvBlock (fs ++ [f])]) = Ok (te, td, map (map lower_field) (S_HpackApi.sent evs ++ [fs ++ [f]]))).
        { destruct A as (te & td & A). rewrite sent_app in A. exists te, td. exact A. }
        apply (near_exact m evs fs f Q IHf) in A'. unfold all_near in *. rewrite near_from_app in *. split; [exact N|]. cbn [near_from] in *. split; [|exact I].
        rewrite near_block_app. split; [apply IHf|]. cbn [near_block]. split; [|exact I]. unfold after_events in A'. rewrite fold_left_app in A'. exact A'. }
    apply (G gs []). rewrite app_nil_r. reflexivity.
Qed.
