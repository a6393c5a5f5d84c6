(** Derived facts on message heads: exactness, round-trips, prefixes. *)
From Coq Require Import Ascii String NArith ZArith Lia Bool List ZifyBool ZifyNat ZifyN.
From Verif Require Import Base P_Base M_Std P_Std M_Helper S_Http1 P_Helper M_Header P_Header M_Url M_Http1 S_Http1Api S_Reason P_Http1.
Import ListNotations.
Local Open Scope N_scope.
Ltac Zify.zify_post_hook ::= Z.div_mod_to_equations.

(** ** Header blocks *)
Lemma header_roundtrip h rest : fields_ok h -> distinct_names h ->
  parse_header (hm_encode h ++ rest) = (h, Ok rest).
Proof.
  intros H D. rewrite hm_encode_text. rewrite (parse_header_fields _ h) by (apply fields_text_fields; exact H).
  rewrite add_fields_nil by exact D. reflexivity.
Qed.
Lemma distinct_insert h n v : distinct_names h -> distinct_names (hm_insert h n v).
Proof.
  assert (K : forall (P : bytes -> Prop) h n v, Forall (fun nv => P (fst nv)) h -> P n -> Forall (fun nv => P (fst nv)) (hm_insert h n v)).
  { intros P h0 m w. induction h0 as [|[n' v'] h0 IH]; intros H Hm; [repeat constructor; exact Hm|].
    cbn [hm_insert]. inversion H; subst. destruct (name_eq n' m); constructor; auto. }
  induction h as [|[n' v'] h IH]; intros H; [repeat constructor|]. destruct H as [H1 H2].
  cbn [hm_insert fst] in *. destruct (name_eq n' n) eqn:E; split; cbn [fst]; auto.
  apply (K (fun m => name_eq n' m = false)); assumption.
Qed.
Lemma distinct_push h n v : distinct_names h -> distinct_names (hm_push h n v).
Proof.
  assert (K : forall (P : bytes -> Prop) h n v, Forall (fun nv => P (fst nv)) h -> P n -> Forall (fun nv => P (fst nv)) (hm_push h n v)).
  { intros P h0 m w. induction h0 as [|[n' v'] h0 IH]; intros H Hm; [repeat constructor; exact Hm|].
    cbn [hm_push]. inversion H; subst. destruct (name_eq n' m); constructor; auto. }
  induction h as [|[n' v'] h IH]; intros H; [repeat constructor|]. destruct H as [H1 H2].
  cbn [hm_push fst] in *. destruct (name_eq n' n) eqn:E; split; cbn [fst]; auto.
  apply (K (fun m => name_eq n' m = false)); assumption.
Qed.
Lemma distinct_remove h n : distinct_names h -> distinct_names (fst (hm_remove h n)).
Proof.
  assert (K : forall (P : bytes -> Prop) h n, Forall (fun nv => P (fst nv)) h -> Forall (fun nv => P (fst nv)) (fst (hm_remove h n))).
  { intros P h0 m. induction h0 as [|[n' v'] h0 IH]; intros H; [constructor|].
    cbn [hm_remove]. inversion H; subst. destruct (name_eq n' m); [assumption|].
    destruct (hm_remove h0 m) as [r o]. cbn [fst] in *. constructor; auto. }
  induction h as [|[n' v'] h IH]; intros H; [exact I|]. destruct H as [H1 H2].
  cbn [hm_remove fst] in *. destruct (name_eq n' n) eqn:E; [exact H2|].
  specialize (K (fun m => name_eq n' m = false) h n H1). specialize (IH H2).
  destruct (hm_remove h n) as [r o]. cbn [fst] in *. split; assumption.
Qed.
Lemma distinct_names_map h h' : map fst h = map fst h' -> distinct_names h -> distinct_names h'.
Proof.
  assert (K : forall (P : bytes -> Prop) (h : headers), Forall (fun nv => P (fst nv)) h <-> Forall P (map fst h)).
  { intros P h0. rewrite Forall_map. tauto. }
  revert h'. induction h as [|nv h IH]; intros [|nv' h'] E H; try discriminate; [exact I|].
  cbn [map] in E. injection E as E1 E2. destruct H as [H1 H2]. split; [|exact (IH _ E2 H2)].
  rewrite <- E1. apply (K (fun n => name_eq (fst nv) n = false)). rewrite <- E2.
  apply (K (fun n => name_eq (fst nv) n = false)). exact H1.
Qed.
Lemma hm_update_names h n f h' : hm_update h n f = Ok h' -> map fst h' = map fst h.
Proof.
  revert h'. induction h as [|[n' v'] h IH]; intros h' H; [discriminate|]. cbn [hm_update] in H.
  destruct (name_eq n' n); [injection H as <-; reflexivity|].
  apply bind_ok in H as (r & H & E). injection E as <-. cbn [map fst]. rewrite (IH _ H). reflexivity.
Qed.
Lemma distinct_hop h o h' : distinct_names h -> hop_run h o = Ok h' -> distinct_names h'.
Proof.
  intros D H. destruct o as [n v|n v|n| |n v]; cbn [hop_run] in H;
    try (injection H as <-; auto using distinct_insert, distinct_push, distinct_remove; exact I).
  unfold hm_index_mut in H. destruct (hm_contains h n); apply hm_update_names in H;
    (eapply distinct_names_map; [symmetry; exact H|]); auto using distinct_insert.
Qed.
Lemma hops_fold ops : forall r, fold_left (fun r o => h <- r ;; hop_run h o) ops r =
  h <- r ;; fold_left (fun r o => h <- r ;; hop_run h o) ops (Ok h).
Proof.
  induction ops as [|o ops IH]; intros r; [destruct r; reflexivity|].
  cbn [fold_left]. rewrite IH. destruct r as [h|e| |]; cbn [bind]; try reflexivity. rewrite <- IH. reflexivity.
Qed.
Lemma distinct_hops ops h : hops_run ops = Ok h -> distinct_names h.
Proof.
  unfold hops_run. assert (G : forall h0, distinct_names h0 ->
    fold_left (fun r o => h <- r ;; hop_run h o) ops (Ok h0) = Ok h -> distinct_names h).
  { induction ops as [|o ops IH]; intros h0 D H; [injection H as <-; exact D|].
    cbn [fold_left bind] in H. rewrite hops_fold in H. apply bind_ok in H as (h1 & H1 & H).
    apply (IH h1); [|exact H]. apply (distinct_hop h0 o); assumption. }
  apply G. exact I.
Qed.
Lemma hm_update_present h n f : hm_contains h n = true -> exists h', hm_update h n f = Ok h'.
Proof.
  unfold hm_contains. induction h as [|[n' v'] h IH]; [discriminate|]. cbn [hm_get hm_update].
  destruct (name_eq n' n); [eauto|]. intros H. destruct (IH H) as [h' ->]. cbn. eauto.
Qed.
Lemma hm_contains_insert h n v : hm_contains (hm_insert h n v) n = true.
Proof.
  unfold hm_contains. induction h as [|[n' v'] h IH]; cbn [hm_insert hm_get].
  - rewrite name_eq_refl. reflexivity.
  - destruct (name_eq n' n) eqn:E; cbn [hm_get]; rewrite E; [reflexivity|exact IH].
Qed.
Lemma hop_run_ok h o : exists h', hop_run h o = Ok h'.
Proof.
  destruct o as [n v|n v|n| |n v]; cbn [hop_run]; eauto. unfold hm_index_mut.
  destruct (hm_contains h n) eqn:E; apply hm_update_present; [exact E|apply hm_contains_insert].
Qed.
Lemma hops_run_ok ops : exists h, hops_run ops = Ok h.
Proof.
  unfold hops_run. generalize (@nil (bytes * bytes)) as h0.
  induction ops as [|o ops IH]; intros h0; [eexists; reflexivity|].
  cbn [fold_left bind]. destruct (hop_run_ok h0 o) as [h1 ->]. apply IH.
Qed.
Lemma add_fields_step h nv hs : add_fields h (nv :: hs) = add_fields (hm_insert h (fst nv) (snd nv)) hs.
Proof. reflexivity. Qed.
Lemma distinct_add hs : forall h, distinct_names h -> distinct_names (add_fields h hs).
Proof.
  induction hs as [|nv hs IH]; intros h H; [exact H|]. rewrite add_fields_step. apply IH, distinct_insert, H.
Qed.
Lemma fields_ok_insert h n v : fields_ok h -> name_ok n -> value_ok v -> fields_ok (hm_insert h n v).
Proof.
  intros H Hn Hv. induction H as [|[n' v'] h H1 H2 IH]; [repeat constructor; apply Hn || apply Hv|].
  cbn [hm_insert]. destruct (name_eq n' n); constructor; auto. cbn in *. tauto.
Qed.
Lemma value_ok_nil : value_ok [].
Proof. split; [constructor|]. split; [intros []|discriminate]. Qed.
Lemma fields_fields_ok ws hs : fields ws hs -> fields_ok hs.
Proof.
  induction 1 as [| |w n v ws hs Hf Hfs IH]; [constructor..|]. constructor; [|exact IH].
  destruct Hf; cbn [fst snd]; auto using value_ok_nil.
Qed.
Lemma fields_ok_add hs : forall h, fields_ok h -> fields_ok hs -> fields_ok (add_fields h hs).
Proof.
  induction hs as [|nv hs IH]; intros h H Hs; [exact H|]. rewrite add_fields_step. inversion Hs; subst.
  apply IH; [|assumption]. apply fields_ok_insert; tauto.
Qed.
Lemma header_reencode l h r r' : bytes_ok l -> parse_header l = (h, Ok r) ->
  parse_header (hm_encode h ++ r') = (h, Ok r').
Proof.
  intros Hl H. apply parse_header_sound in H as (fs & hs & Hfs & -> & ->); [|exact Hl].
  apply header_roundtrip.
  - apply fields_ok_add; [constructor|]. eapply fields_fields_ok. exact Hfs.
  - apply distinct_add. exact I.
Qed.
(** The exact language of header blocks. *)
Lemma header_exact l h r : bytes_ok l ->
  (parse_header l = (h, Ok r) <-> exists fs hs, fields fs hs /\ l = fs ++ r /\ h = add_fields [] hs).
Proof.
  intros Hl. split.
  - apply parse_header_sound. exact Hl.
  - intros (fs & hs & Hfs & -> & ->). apply parse_header_fields. exact Hfs.
Qed.

(** ** Request URLs *)
Lemma num_of_dec l : num_of l = dec_val l.
Proof.
  unfold num_of, dec_val, digits_val. generalize 0 at 1 2 as a. induction l as [|b l IH]; intros a; [reflexivity|].
  cbn [fold_left]. rewrite IH. f_equal. lia.
Qed.
Lemma digit_dec l : forallb dec_digit l = true <-> Forall digit l.
Proof. apply forallb_Forall. intros b. unfold dec_digit, digit. lia. Qed.
Lemma parse_digits_spec bound p n : parse_digits bound p = Some n <->
  n < bound /\ p <> [] /\ Forall digit p /\ n = num_of p.
Proof.
  unfold parse_digits. rewrite <- digit_dec, num_of_dec. destruct p as [|b p].
  - split; [discriminate|]. intros (_ & H & _). contradiction.
  - set (l := b :: p). destruct (forallb dec_digit l).
    + destruct (dec_val l <? bound) eqn:E.
      * split; [intros K; injection K as <-; repeat split; [lia|discriminate]|]. intros (_ & _ & _ & ->). reflexivity.
      * split; [discriminate|]. intros (H & _ & _ & ->). lia.
    + split; [discriminate|]. intros (_ & _ & H & _). discriminate.
Qed.
Lemma parse_uint_spec p n : parse_uint 65536 p = Some n <-> port_text p n.
Proof.
  unfold port_text. split.
  - intros H. destruct p as [|b p]; [discriminate|]. destruct (N.eq_dec b 43) as [->|Hb].
    + apply parse_digits_spec in H as (H1 & H2 & H3 & H4). split; [exact H1|]. exists p. auto.
    + assert (H' : parse_digits 65536 (b :: p) = Some n).
      { unfold parse_uint in H. repeat match type of H with match ?x with _ => _ end = _ => destruct x; try exact H end; contradiction. }
      apply parse_digits_spec in H' as (H1 & H2 & H3 & H4). split; [exact H1|]. exists (b :: p). auto.
  - intros (H1 & ds & H2 & H3 & [->| ->] & ->).
    + rewrite parse_uint_digits by (apply digit_dec; exact H3). apply parse_digits_spec. auto.
    + unfold parse_uint. apply parse_digits_spec. auto.
Qed.
Lemma connect_by_host_spec u h u' : parse_connect_by_host u h = Ok u' <->
  exists d n, host_parts h d n /\ u' = with_host u d n.
Proof.
  destruct u as [sc pa us pw dom po q]. unfold parse_connect_by_host. split.
  - intros H. destruct (split_on_join 58 h) as [J F].
    destruct (split_on 58 h) as [|d [|p [|? ?]]]; try discriminate.
    + injection H as <-. cbn in J. subst h. exists d, 80. split; [|reflexivity]. constructor.
      inversion F; assumption.
    + destruct (parse_uint 65536 p) as [n|] eqn:E; [|discriminate]. injection H as <-.
      apply parse_uint_spec in E. exists d, n. split; [|reflexivity].
      cbn in J. rewrite <- J. inversion F as [|? ? F1 F2]; subst. inversion F2; subst.
      apply hp_port; assumption.
  - intros (d & n & H & ->). destruct H as [d Hd|d p n Hd Hp Hn].
    + rewrite split_on_none by exact Hd. reflexivity.
    + rewrite split_on_app by exact Hd. rewrite split_on_none by exact Hp.
      apply parse_uint_spec in Hn. rewrite Hn. reflexivity.
Qed.
Lemma scheme_none_eq s : scheme_is_none s = true <-> s = ScNone.
Proof. destruct s; cbn; split; congruence. Qed.
Definition hint_of (h : headers) : scheme :=
  match hm_get h (str ":scheme") with
  | Some v => match scheme_of_str (utf8_lossy v) with Ok s => s | _ => ScHttp end
  | None => ScHttp
  end.
Lemma hint_of_spec h s : scheme_hint h s <-> s = hint_of h.
Proof.
  unfold hint_of. split.
  - intros [H|v s' H H'|v H H']; rewrite H; [reflexivity|rewrite H'; reflexivity|].
    destruct (scheme_of_str (utf8_lossy v)) as [s'| | |]; try reflexivity. exfalso. apply (H' s'). reflexivity.
  - intros ->. destruct (hm_get h (str ":scheme")) as [v|] eqn:E; [|apply sh_none; exact E].
    destruct (scheme_of_str (utf8_lossy v)) as [s'| | |] eqn:E2; [eapply sh_some; eassumption|eapply sh_bad; [exact E|congruence]..].
Qed.
Lemma wire_url_spec m t h u : req_url_of m t h = Ok u <-> wire_url m t h u.
Proof.
  assert (G : req_complete_url t h = Ok u <->
    exists u0 u1, url_parse t = Ok u0 /\ host_filled h u0 u1 /\ scheme_filled h u1 u).
  { unfold req_complete_url. split.
    - intros H. apply bind_ok in H as (u0 & H0 & H). apply bind_ok in H as (u1 & H1 & H).
      exists u0, u1. split; [exact H0|]. split.
      + destruct (u_domain u0) as [d|] eqn:E; cbn [is_some] in H1.
        * injection H1 as <-. apply hf_own. congruence.
        * destruct (hm_get_host h) as [hs|] eqn:E2.
          -- apply connect_by_host_spec in H1 as (d & n & Hp & ->). eapply hf_host; eassumption.
          -- injection H1 as <-. apply hf_none; assumption.
      + fold (hint_of h) in H. destruct u1 as [sc pa us pw dom po q].
        destruct (scheme_is_none sc) eqn:E; injection H as <-.
        * apply scheme_none_eq in E. subst sc. apply (sf_hint h (mkUrl ScNone pa us pw dom po q)); [reflexivity|].
          apply hint_of_spec. reflexivity.
        * apply sf_own. cbn. intros ->. discriminate.
    - intros (u0 & u1 & H0 & H1 & H2). rewrite H0. cbn [bind].
      assert (E1 : (if is_some (u_domain u0) then Ok u0 else match hm_get_host h with
                    | Some hs => parse_connect_by_host u0 hs | None => Ok u0 end) = Ok u1).
      { destruct H1 as [D|D D2|hst d n D D2 D3].
        - destruct (u_domain u0); [reflexivity|contradiction].
        - rewrite D, D2. reflexivity.
        - rewrite D, D2. cbn [is_some]. apply connect_by_host_spec. eauto. }
      rewrite E1. cbn [bind]. fold (hint_of h). destruct u1 as [sc pa us pw dom po q].
      destruct H2 as [S|s S S2].
      + cbn in S. destruct (scheme_is_none sc) eqn:E; [apply scheme_none_eq in E; contradiction|reflexivity].
      + cbn in S. subst sc. apply hint_of_spec in S2. subst s. reflexivity. }
  destruct (match m with MConnect => true | _ => false end) eqn:E.
  - destruct m; try discriminate. cbn [req_url_of]. rewrite connect_by_host_spec. split.
    + intros (d & n & Hp & ->). apply wu_connect; [reflexivity|exact Hp].
    + intros [d n _ Hp|? ? ? K]; [eauto|contradiction].
  - assert (M : m <> MConnect) by (intros ->; discriminate).
    replace (req_url_of m t h) with (req_complete_url t h) by (destruct m; [reflexivity..|contradiction|reflexivity|reflexivity]).
    rewrite G. split.
    + intros (u0 & u1 & H0 & H1 & H2). eapply wu_target; eassumption.
    + intros [d n K _|u0 u1 u2 _ H0 H1 H2]; [contradiction|eauto].
Qed.

(** ** Requests *)
Lemma req_parse_eq q l : req_parse q l =
  (fst (req_parse_buffer q l), match snd (req_parse_buffer q l) with
     | Ok rest => Ok (blen l - blen rest) | Err e => Err e | Panic => Panic | Diverge => Diverge end).
Proof. unfold req_parse. destruct (req_parse_buffer q l) as [q' [r|e| |]]; reflexivity. Qed.
Lemma resp_parse_eq q l : resp_parse q l =
  (fst (resp_parse_buffer q l), match snd (resp_parse_buffer q l) with
     | Ok rest => Ok (blen l - blen rest) | Err e => Err e | Panic => Panic | Diverge => Diverge end).
Proof. unfold resp_parse. destruct (resp_parse_buffer q l) as [q' [r|e| |]]; reflexivity. Qed.

Lemma request_exact q l q' n : bytes_ok l ->
  (req_parse q l = (q', Ok n) <->
   exists wire rest m t v hs u, l = wire ++ rest /\ n = blen wire /\
     In m known_methods /\ In v known_versions /\
     request_head wire (method_str m) t (version_str v) hs /\
     wire_url m t (add_fields [] hs) u /\
     q' = mkReq m v u (add_fields [] hs) false).
Proof.
  intros Hl. rewrite req_parse_eq. split.
  - destruct (req_parse_buffer q l) as [q1 [r|e| |]] eqn:E; cbn [fst snd]; try discriminate.
    intros H. injection H as -> <-. apply req_parse_sound in E; [|exact Hl].
    destruct E as (wire & m & t & v & hs & u & -> & Hm & Hv & Hh & Hu & ->).
    exists wire, r, m, t, v, hs, u. repeat split; auto.
    + rewrite blen_app. lia.
    + apply wire_url_spec. exact Hu.
  - intros (wire & rest & m & t & v & hs & u & -> & -> & Hm & Hv & Hh & Hu & ->).
    rewrite (req_parse_head q wire m t v hs rest Hh Hm Hv). apply wire_url_spec in Hu. rewrite Hu. cbn [try_ fst snd].
    rewrite blen_app. do 2 f_equal. lia.
Qed.
Lemma request_text_head m t v hs : In m known_methods -> In v known_versions -> word t -> fields_ok hs ->
  request_head (request_text (method_str m) t (version_str v) hs) (method_str m) t (version_str v) hs.
Proof.
  intros Hm Hv Ht Hf. unfold request_text.
  change (method_str m ++ [SP] ++ t ++ [SP] ++ version_str v ++ CRLF ++ fields_text hs)
    with ([] ++ method_str m ++ spaces 1 ++ t ++ spaces 1 ++ version_str v ++ CRLF ++ fields_text hs).
  constructor; auto using method_word, version_word, fields_text_fields; constructor.
Qed.
Lemma request_accept q m t v hs u body :
  In m known_methods -> In v known_versions -> word t -> fields_ok hs -> distinct_names hs ->
  wire_url m t hs u ->
  req_parse q (request_text (method_str m) t (version_str v) hs ++ body) =
    (mkReq m v u hs false, Ok (blen (request_text (method_str m) t (version_str v) hs))).
Proof.
  intros Hm Hv Ht Hf Hd Hu. rewrite req_parse_eq.
  rewrite (req_parse_head q _ m t v hs body (request_text_head m t v hs Hm Hv Ht Hf) Hm Hv).
  rewrite add_fields_nil by exact Hd. apply wire_url_spec in Hu. rewrite Hu. cbn [try_ fst snd].
  rewrite blen_app. do 2 f_equal. lia.
Qed.
Lemma request_stable q l x : snd (req_parse q l) <> partial -> req_parse q (l ++ x) = req_parse q l.
Proof.
  rewrite !req_parse_eq. cbn [snd]. intros H.
  destruct (req_parse_buffer_stable q l x) as [K|K].
  - exfalso. apply H. rewrite K. reflexivity.
  - rewrite K. cbn [fst snd]. destruct (snd (req_parse_buffer q l)); cbn [ext_rest]; try reflexivity.
    rewrite !blen_app. do 2 f_equal. lia.
Qed.
Lemma response_stable q l x : snd (resp_parse q l) <> partial -> resp_parse q (l ++ x) = resp_parse q l.
Proof.
  rewrite !resp_parse_eq. cbn [snd]. intros H.
  destruct (resp_parse_buffer_stable q l x) as [K|K].
  - exfalso. apply H. rewrite K. reflexivity.
  - rewrite K. cbn [fst snd]. destruct (snd (resp_parse_buffer q l)); cbn [ext_rest]; try reflexivity.
    rewrite !blen_app. do 2 f_equal. lia.
Qed.
Lemma header_stable l x h r : parse_header l = (h, r) -> r <> partial ->
  parse_header (l ++ x) = (h, match r with Ok rest => Ok (rest ++ x) | _ => r end).
Proof.
  intros E H. destruct (parse_header_stable l x) as [K|K].
  - rewrite E in K. contradiction.
  - rewrite E in K. exact K.
Qed.
Lemma req_parse_len q l q' n : req_parse q l = (q', Ok n) -> 0 < n <= blen l.
Proof.
  rewrite req_parse_eq. destruct (req_parse_buffer q l) as [q1 [r|e| |]] eqn:E; cbn [fst snd]; try discriminate.
  intros H. injection H as _ <-. apply req_parse_buffer_suffix in E. unfold blen. lia.
Qed.
Lemma req_prefix q l q' n p s : req_parse q l = (q', Ok n) -> l = p ++ s -> blen p < n ->
  snd (req_parse q p) = partial.
Proof.
  intros H -> Hp. destruct (snd (req_parse q p)) as [k|e| |] eqn:E.
  - exfalso. assert (N : snd (req_parse q p) <> partial) by (rewrite E; discriminate).
    apply (request_stable q p s) in N. rewrite H in N.
    destruct (req_parse q p) as [q1 r1] eqn:E1. cbn [snd] in *. subst r1. injection N as -> ->.
    apply req_parse_len in E1. lia.
  - destruct (is_partial e) eqn:P.
    + destruct e as [h| | | | | | |]; try discriminate. destruct h; try discriminate. reflexivity.
    + exfalso. assert (N : snd (req_parse q p) <> partial) by (rewrite E; intros K; injection K as ->; discriminate).
      apply (request_stable q p s) in N. rewrite H in N. rewrite <- N in E. discriminate.
  - exfalso. assert (N : snd (req_parse q p) <> partial) by (rewrite E; discriminate).
    apply (request_stable q p s) in N. rewrite H in N. rewrite <- N in E. discriminate.
  - exfalso. assert (N : snd (req_parse q p) <> partial) by (rewrite E; discriminate).
    apply (request_stable q p s) in N. rewrite H in N. rewrite <- N in E. discriminate.
Qed.

(** ** Responses *)
Lemma response_exact p l p' n : bytes_ok l ->
  (resp_parse p l = (p', Ok n) <->
   exists wire rest v c hs, l = wire ++ rest /\ n = blen wire /\
     In v known_versions /\ 100 <= c <= 999 /\
     response_head wire (version_str v) (status_str c) hs /\
     p' = mkResp c v (add_fields [] hs) false).
Proof.
  intros Hl. rewrite resp_parse_eq. split.
  - destruct (resp_parse_buffer p l) as [q1 [r|e| |]] eqn:E; cbn [fst snd]; try discriminate.
    intros H. injection H as -> <-. apply resp_parse_sound in E; [|exact Hl].
    destruct E as (wire & v & c & hs & -> & Hv & Hc & Hh & ->).
    exists wire, r, v, c, hs. repeat split; auto; try apply Hc. rewrite blen_app. lia.
  - intros (wire & rest & v & c & hs & -> & -> & Hv & Hc & Hh & ->).
    rewrite (resp_parse_head p wire v c hs rest Hh Hv Hc). cbn [fst snd].
    rewrite blen_app. do 2 f_equal. lia.
Qed.
Lemma response_text_head v c rs hs : In v known_versions -> 100 <= c <= 999 -> reason_ok rs -> fields_ok hs ->
  response_head (response_text (version_str v) (status_str c) rs hs) (version_str v) (status_str c) hs.
Proof.
  intros Hv Hc Hr Hf. unfold response_text.
  change (version_str v ++ [SP] ++ status_str c ++ [SP] ++ rs ++ CRLF ++ fields_text hs)
    with ([] ++ version_str v ++ spaces 1 ++ status_str c ++ spaces 1 ++ rs ++ CRLF ++ fields_text hs).
  constructor; auto using version_word, status_word, fields_text_fields. constructor.
Qed.
Lemma response_accept p v c rs hs body :
  In v known_versions -> 100 <= c <= 999 -> reason_ok rs -> fields_ok hs -> distinct_names hs ->
  resp_parse p (response_text (version_str v) (status_str c) rs hs ++ body) =
    (mkResp c v hs false, Ok (blen (response_text (version_str v) (status_str c) rs hs))).
Proof.
  intros Hv Hc Hr Hf Hd. rewrite resp_parse_eq.
  rewrite (resp_parse_head p _ v c hs body (response_text_head v c rs hs Hv Hc Hr Hf) Hv Hc).
  rewrite add_fields_nil by exact Hd. cbn [fst snd]. rewrite blen_app. do 2 f_equal. lia.
Qed.
Lemma resp_parse_len p l p' n : bytes_ok l -> resp_parse p l = (p', Ok n) -> 0 < n <= blen l.
Proof.
  intros Hl H. apply response_exact in H; [|exact Hl].
  destruct H as (wire & rest & v & c & hs & -> & -> & Hv & Hc & Hh & ->).
  rewrite blen_app. destruct Hh as [bl vs i cs j rs e fs hs Hbl [Hvs _] _ _ _ _]. rewrite !blen_app.
  destruct vs; [contradiction|]. rewrite blen_cons. lia.
Qed.
Lemma resp_prefix q l q' n p s : bytes_ok l -> resp_parse q l = (q', Ok n) -> l = p ++ s -> blen p < n ->
  snd (resp_parse q p) = partial.
Proof.
  intros Hl H -> Hp. apply bytes_ok_app in Hl as [Hl _]. destruct (snd (resp_parse q p)) as [k|e| |] eqn:E.
  - exfalso. assert (N : snd (resp_parse q p) <> partial) by (rewrite E; discriminate).
    apply (response_stable q p s) in N. rewrite H in N.
    destruct (resp_parse q p) as [q1 r1] eqn:E1. cbn [snd] in *. subst r1. injection N as -> ->.
    apply resp_parse_len in E1; [lia|exact Hl].
  - destruct (is_partial e) eqn:P.
    + destruct e as [h| | | | | | |]; try discriminate. destruct h; try discriminate. reflexivity.
    + exfalso. assert (N : snd (resp_parse q p) <> partial) by (rewrite E; intros K; injection K as ->; discriminate).
      apply (response_stable q p s) in N. rewrite H in N. rewrite <- N in E. discriminate.
  - exfalso. assert (N : snd (resp_parse q p) <> partial) by (rewrite E; discriminate).
    apply (response_stable q p s) in N. rewrite H in N. rewrite <- N in E. discriminate.
  - exfalso. assert (N : snd (resp_parse q p) <> partial) by (rewrite E; discriminate).
    apply (response_stable q p s) in N. rewrite H in N. rewrite <- N in E. discriminate.
Qed.

(** Everything after the consumed bytes may be replaced. *)
Lemma firstn_blen (w r : bytes) : firstn (N.to_nat (blen w)) (w ++ r) = w.
Proof.
  unfold blen. rewrite Nat2N.id, firstn_app, Nat.sub_diag, firstn_all. cbn. apply app_nil_r.
Qed.
Lemma req_tail q l q' n tail : bytes_ok l -> req_parse q l = (q', Ok n) ->
  n <= blen l /\ req_parse q (firstn (N.to_nat n) l ++ tail) = (q', Ok n).
Proof.
  intros Hl H. split; [apply req_parse_len in H; lia|].
  apply request_exact in H; [|exact Hl].
  destruct H as (wire & rest & m & t & v & hs & u & -> & -> & Hm & Hv & Hh & Hu & ->).
  rewrite firstn_blen. rewrite req_parse_eq.
  rewrite (req_parse_head q wire m t v hs tail Hh Hm Hv). apply wire_url_spec in Hu. rewrite Hu. cbn [try_ fst snd].
  rewrite blen_app. do 2 f_equal. lia.
Qed.
Lemma resp_tail q l q' n tail : bytes_ok l -> resp_parse q l = (q', Ok n) ->
  n <= blen l /\ resp_parse q (firstn (N.to_nat n) l ++ tail) = (q', Ok n).
Proof.
  intros Hl H. split; [apply resp_parse_len in H; [lia|exact Hl]|].
  apply response_exact in H; [|exact Hl].
  destruct H as (wire & rest & v & c & hs & -> & -> & Hv & Hc & Hh & ->).
  rewrite firstn_blen. rewrite resp_parse_eq. rewrite (resp_parse_head q wire v c hs tail Hh Hv Hc). cbn [fst snd].
  rewrite blen_app. do 2 f_equal. lia.
Qed.
Lemma req_total q l : returns (snd (req_parse q l)).
Proof.
  rewrite req_parse_eq. pose proof (req_parse_buffer_total q l) as [H1 H2]. cbn [snd].
  destruct (snd (req_parse_buffer q l)); try contradiction; split; discriminate.
Qed.
Lemma resp_total q l : returns (snd (resp_parse q l)).
Proof.
  rewrite resp_parse_eq. pose proof (resp_parse_buffer_total q l) as [H1 H2]. cbn [snd].
  destruct (snd (resp_parse_buffer q l)); try contradiction; split; discriminate.
Qed.
Lemma req_fresh q q' l : snd (req_parse q l) = snd (req_parse q' l) /\
  (forall n, snd (req_parse q l) = Ok n -> fst (req_parse q l) = fst (req_parse q' l)).
Proof.
  rewrite !req_parse_eq. cbn [fst snd]. destruct (req_parse_buffer_fresh q q' l) as [H1 H2]. rewrite <- H1.
  split; [reflexivity|]. intros n Hn. destruct (snd (req_parse_buffer q l)) eqn:E; try discriminate. eapply H2. reflexivity.
Qed.
Lemma resp_fresh q q' l : snd (resp_parse q l) = snd (resp_parse q' l) /\
  (forall n, snd (resp_parse q l) = Ok n -> fst (resp_parse q l) = fst (resp_parse q' l)).
Proof.
  rewrite !resp_parse_eq. cbn [fst snd]. destruct (resp_parse_buffer_fresh q q' l) as [H1 H2]. rewrite <- H1.
  split; [reflexivity|]. intros n Hn. destruct (snd (resp_parse_buffer q l)) eqn:E; try discriminate. eapply H2. reflexivity.
Qed.

(** ** Serialisation *)
Lemma method_str_encode m : In m known_methods -> method_encode m = Ok (method_str m).
Proof. intros H. cbn in H. repeat (destruct H as [<-|H]; [reflexivity|]). destruct H. Qed.
Lemma version_str_encode v : In v known_versions -> version_encode v = Ok (version_str v).
Proof. intros H. cbn in H. repeat (destruct H as [<-|H]; [reflexivity|]). destruct H. Qed.
Lemma req_encode_text q body : In (q_method q) known_methods -> In (q_version q) known_versions ->
  req_http1_data q body =
  Ok (request_text (method_str (q_method q)) (u_path (q_url q)) (version_str (q_version q)) (q_header q) ++ body).
Proof.
  intros Hm Hv. unfold req_http1_data, req_encode_header.
  rewrite method_str_encode, version_str_encode by assumption. cbn [bind]. rewrite hm_encode_text.
  unfold request_text. napp. reflexivity.
Qed.
Lemma plain_path_word p : plain_path p -> word p.
Proof.
  intros [H1 H2]. split; [destruct p; [discriminate|discriminate]|].
  eapply Forall_impl; [|exact H2]. cbn. tauto.
Qed.
Lemma pct_decode_plain l : ~ In 37 l -> pct_decode l = Ok l.
Proof.
  induction l as [|b l IH]; intros H; [reflexivity|]. cbn [pct_decode].
  destruct (b =? 37) eqn:E; [apply N.eqb_eq in E; subst; exfalso; apply H; left; reflexivity|].
  rewrite IH by (intros K; apply H; right; exact K). reflexivity.
Qed.
Lemma url_loop_path l : Forall (fun b => vchar b /\ b <> 37 /\ b <> 63 /\ b <> 64) l ->
  forall v, url_loop false (mkUst None None None None None None true v) l
  = Ok (mkUst None None None None (Some (v ++ l)) None true []).
Proof.
  induction 1 as [|b l (Hb & _ & H1 & H2) Hl IH]; intros v.
  - rewrite app_nil_r. reflexivity.
  - cbn [url_loop url_step negb]. replace (v ++ b :: l) with ((v ++ [b]) ++ l) by (rewrite <- app_assoc; reflexivity).
    destruct (b =? 58) eqn:E1; [cbn [bind]; apply IH|].
    destruct (b =? 64) eqn:E2; [lia|]. destruct (b =? 47) eqn:E3; [cbn [bind]; apply IH|].
    destruct (b =? 63) eqn:E4; [lia|].
    rewrite (proj2 (token_vchar b) Hb). cbn [negb bind]. apply IH.
Qed.
Lemma url_parse_plain p : plain_path p ->
  url_parse p = Ok (mkUrl ScNone p None None None (Some 0) None).
Proof.
  intros [H1 H2]. destruct p as [|b p]; [discriminate|]. cbn in H1. injection H1 as ->.
  unfold url_parse. change (is_alpha 47) with false. change (47 =? 47) with true. cbv iota.
  change (ust0 true) with (mkUst None None None None None None true []).
  rewrite url_loop_path by exact H2. cbn [bind app].
  unfold url_build. cbn [s_user s_pass s_domain s_port s_path s_query decode_opt bind].
  unfold parse_url_token. rewrite pct_decode_plain.
  2:{ rewrite Forall_forall in H2. intros K. apply H2 in K. lia. }
  cbn [bind]. rewrite utf8_valid_ascii; [reflexivity|].
  eapply Forall_impl; [|exact H2]. cbn. unfold vchar. lia.
Qed.
Lemma request_roundtrip q q0 body :
  In (q_method q) known_methods -> q_method q <> MConnect -> In (q_version q) known_versions ->
  plain_path (u_path (q_url q)) -> u_query (q_url q) = None ->
  fields_ok (q_header q) -> distinct_names (q_header q) ->
  (hm_get_host (q_header q) = None \/ exists h d n, hm_get_host (q_header q) = Some h /\ host_parts h d n) ->
  exists w u, req_http1_data q body = Ok (w ++ body) /\
    req_parse q0 (w ++ body) = (mkReq (q_method q) (q_version q) u (q_header q) false, Ok (blen w)) /\
    u_path u = u_path (q_url q) /\ u_query u = u_query (q_url q) /\
    wire_url (q_method q) (u_path (q_url q)) (q_header q) u.
Proof.
  intros Hm Hc Hv Hp Hq Hf Hd Hh.
  exists (request_text (method_str (q_method q)) (u_path (q_url q)) (version_str (q_version q)) (q_header q)).
  set (p := u_path (q_url q)) in *. set (h := q_header q) in *.
  assert (exists u1, host_filled h (mkUrl ScNone p None None None (Some 0) None) u1 /\
            u_scheme u1 = ScNone /\ u_path u1 = p /\ u_query u1 = None) as (u1 & H1 & H2 & H3 & H4).
  { destruct Hh as [Hh|(hs & d & n & Hh & Hd')].
    - eexists. split; [apply hf_none; [reflexivity|exact Hh]|]. repeat split.
    - eexists. split; [eapply hf_host; [reflexivity|exact Hh|exact Hd']|]. repeat split. }
  assert (W : wire_url (q_method q) p h (with_scheme u1 (hint_of h))).
  { eapply wu_target; [exact Hc|apply url_parse_plain; exact Hp|exact H1|].
    apply sf_hint; [exact H2|]. apply hint_of_spec. reflexivity. }
  exists (with_scheme u1 (hint_of h)). split; [apply req_encode_text; assumption|].
  split; [apply request_accept; auto using plain_path_word|].
  cbn [with_scheme u_path u_query]. rewrite Hq. auto.
Qed.
Lemma wire_url_fun m t h u u' : wire_url m t h u -> wire_url m t h u' -> u = u'.
Proof. intros H H'. apply wire_url_spec in H, H'. congruence. Qed.
(** Parsing, writing and parsing again is parsing once. *)
Lemma request_reparse q0 q1 l q n w body : bytes_ok l -> req_parse q0 l = (q, Ok n) ->
  q_method q <> MConnect -> plain_path (u_path (q_url q)) ->
  (exists h d pt, hm_get_host (q_header q) = Some h /\ host_parts h d pt /\ u_domain (q_url q) = Some d /\ u_port (q_url q) = Some pt) ->
  u_user (q_url q) = None -> u_pass (q_url q) = None -> u_query (q_url q) = None ->
  scheme_hint (q_header q) (u_scheme (q_url q)) ->
  req_http1_data q body = Ok w -> req_parse q1 w = (q, Ok (blen w - blen body)).
Proof.
  intros Hl H Hc Hp (hst & d & pt & Hh & Hd & D1 & D2) U1 U2 U3 Hs E.
  apply request_exact in H; [|exact Hl].
  destruct H as (wire & rest & m & t & v & hs & u & -> & -> & Hm & Hv & Hw & Hu & ->).
  cbn [q_method q_version q_url q_header] in *.
  assert (F : fields_ok (add_fields [] hs)).
  { apply fields_ok_add; [constructor|]. destruct Hw. eapply fields_fields_ok. eassumption. }
  assert (DN : distinct_names (add_fields [] hs)) by (apply distinct_add; exact I).
  destruct (request_roundtrip (mkReq m v u (add_fields [] hs) false) q1 body) as (w' & u' & E1 & E2 & E3 & E4 & E5); auto.
  { right. eauto. }
  cbn [q_method q_version q_url q_header] in *. rewrite E1 in E. injection E as <-.
  assert (u' = u).
  { eapply wire_url_fun; [exact E5|].
    assert (W2 : with_scheme (with_host (mkUrl ScNone (u_path u) None None None (Some 0) None) d pt) (u_scheme u) = u).
    { destruct u as [sc pa us pw dom po qu]. cbn in *. subst. reflexivity. }
    rewrite <- W2 at 2. eapply wu_target; [exact Hc|apply url_parse_plain; exact Hp| |].
    - eapply hf_host; [reflexivity|exact Hh|exact Hd].
    - apply sf_hint; [reflexivity|exact Hs]. }
  subst u'. rewrite E2. rewrite blen_app. do 2 f_equal. lia.
Qed.

Definition reason_okb (r : bytes) : bool :=
  match r with [] => false | b :: _ => negb (b =? 32) end && forallb is_status_token r.
Lemma reason_okb_ok r : reason_okb r = true -> reason_ok r.
Proof.
  unfold reason_okb. rewrite andb_true_iff. intros [H1 H2]. split; [destruct r; discriminate|]. split.
  - apply (forallb_Forall is_status_token (fun b => 32 <= b <= 126)) in H2; [exact H2|apply status_token_spec].
  - destruct r as [|b r]; [discriminate|]. cbn. unfold SP. intros K. injection K as ->. discriminate.
Qed.
Lemma canonical_reason_ok c rs : canonical_reason c = Some rs -> 100 <= c <= 999 /\ reason_ok rs.
Proof.
  unfold canonical_reason. intros H.
  assert (G : forallb (fun cr => (100 <=? fst cr) && (fst cr <=? 999) && reason_okb (str (snd cr))) reason_table = true)
    by (vm_compute; reflexivity).
  revert H G. generalize reason_table. induction l as [|[c' s] l IH]; intros H G; [discriminate|].
  cbn [forallb] in G. apply andb_true_iff in G as [G1 G2]. cbn [reason_lookup fst snd] in *.
  destruct (c' =? c) eqn:E.
  - injection H as <-. apply N.eqb_eq in E. subst c'. rewrite !andb_true_iff in G1.
    split; [lia|]. apply reason_okb_ok. tauto.
  - apply IH; assumption.
Qed.
Lemma response_roundtrip p p0 rs body :
  In (p_version p) known_versions -> canonical_reason (p_status p) = Some rs ->
  fields_ok (p_header p) -> distinct_names (p_header p) ->
  exists w, resp_httpdata p body = Ok (w ++ body) /\
    w = response_text (version_str (p_version p)) (status_str (p_status p)) rs (p_header p) /\
    resp_parse p0 (w ++ body) = (mkResp (p_status p) (p_version p) (p_header p) false, Ok (blen w)).
Proof.
  intros Hv Hr Hf Hd. destruct (canonical_reason_ok _ _ Hr) as [Hc Hrs].
  eexists. split; [|split; [reflexivity|apply response_accept; assumption]].
  unfold resp_httpdata, resp_encode_header, status_encode. rewrite version_str_encode by assumption. rewrite Hr.
  cbn [bind]. rewrite hm_encode_text. unfold response_text. napp. reflexivity.
Qed.
Lemma response_no_reason p body : In (p_version p) known_versions -> canonical_reason (p_status p) = None ->
  resp_httpdata p body = Err (EHttp InvalidStatusCode).
Proof.
  intros Hv Hr. unfold resp_httpdata, resp_encode_header, status_encode.
  rewrite version_str_encode by assumption. rewrite Hr. reflexivity.
Qed.

(** ** Status codes *)
Lemma status_str_three c : 100 <= c <= 999 -> status_str c = three_digits c.
Proof. intros H. apply beq_eq. revert c H. apply code_sweep. vm_compute. reflexivity. Qed.
Lemma from_bytes_spec l c : bytes_ok l ->
  (status_from_bytes l = Ok c <-> 100 <= c <= 999 /\ l = three_digits c).
Proof.
  intros Hl. split.
  - intros H. apply status_from_ok in H as [H ->]; [|exact Hl]. split; [exact H|apply status_str_three, H].
  - intros [H ->]. rewrite <- status_str_three by exact H. apply status_str_from, H.
Qed.
Lemma from_bytes_err l : (exists c, status_from_bytes l = Ok c) \/ status_from_bytes l = Err (EHttp InvalidStatusCode).
Proof.
  unfold status_from_bytes. destruct l as [|x [|y [|z [|? ?]]]]; auto. cbv zeta.
  match goal with |- context[if ?c then _ else _] => destruct c end; eauto.
Qed.
Lemma from_u16_spec n c : status_from_u16 n = Ok c <-> c = n /\ 100 <= n <= 999.
Proof.
  unfold status_from_u16. destruct ((n <? 100) || (1000 <=? n)) eqn:E.
  - split; [discriminate|]. lia.
  - split; [intros H; injection H as <-; lia|]. intros [-> _]. reflexivity.
Qed.

(** ** Methods and versions *)
Lemma method_names_spec m s : In (m, s) method_names -> In m known_methods /\ method_str m = str s.
Proof. intros H. cbn in H. repeat (destruct H as [H|H]; [injection H as <- <-; cbn; auto 20|]). destruct H. Qed.
Lemma known_method_names m : In m known_methods -> exists s, In (m, s) method_names /\ method_str m = str s.
Proof. intros H. cbn in H. repeat (destruct H as [<-|H]; [eexists; cbn; split; [eauto 20|reflexivity]|]). destruct H. Qed.
Lemma version_names_spec m s : In (m, s) version_names -> In m known_versions /\ version_str m = str s.
Proof. intros H. cbn in H. repeat (destruct H as [H|H]; [injection H as <- <-; cbn; auto 20|]). destruct H. Qed.
Lemma known_version_names m : In m known_versions -> exists s, In (m, s) version_names /\ version_str m = str s.
Proof. intros H. cbn in H. repeat (destruct H as [<-|H]; [eexists; cbn; split; [eauto 20|reflexivity]|]). destruct H. Qed.
Lemma method_try_from t m : method_of_str t = Ok m <-> exists s, In (m, s) method_names /\ t = str s.
Proof.
  split.
  - intros H. apply method_of_str_ok in H as [H ->]. apply known_method_names, H.
  - intros (s & H & ->). apply method_names_spec in H as [H <-]. apply method_of_str_known, H.
Qed.
Lemma method_try_from_err t : (forall m s, In (m, s) method_names -> t <> str s) -> method_of_str t = Err (EHttp MethodErr).
Proof.
  intros H. apply method_of_str_err. intros m Hm. destruct (known_method_names m Hm) as (s & H1 & ->). eapply H, H1.
Qed.
Lemma version_parse_spec t b r v r' : word t -> ~ vchar b ->
  (parse_version (t ++ b :: r) = Ok (v, r') <-> r' = b :: r /\ exists s, In (v, s) version_names /\ t = str s).
Proof.
  intros Ht Hb. assert (Hb' : is_token b = false) by (rewrite <- token_vchar in Hb; destruct (is_token b); congruence).
  split.
  - intros H. unfold parse_version in H. rewrite parse_token_word in H by assumption. cbn [bind] in H.
    repeat match type of H with
    | (if beq t ?s then _ else _) = _ => destruct (beq t s) eqn:?E
    end; try discriminate; injection H as <- <-; (split; [reflexivity|]);
    match goal with K : beq t _ = true |- _ => apply beq_eq in K; subst t end; eexists; (split; [|reflexivity]); cbn; auto 10.
  - intros (-> & s & H & ->). apply version_names_spec in H as [H <-]. apply parse_version_app; assumption.
Qed.
Lemma version_parse_err t b r : word t -> ~ vchar b -> (forall v s, In (v, s) version_names -> t <> str s) ->
  parse_version (t ++ b :: r) = Err (EHttp VersionErr).
Proof.
  intros Ht Hb H. assert (Hb' : is_token b = false) by (rewrite <- token_vchar in Hb; destruct (is_token b); congruence).
  unfold parse_version. rewrite parse_token_word by assumption. cbn [bind].
  repeat match goal with
  | |- (if beq t ?s then _ else _) = _ => destruct (beq t s) eqn:?E
  end; try reflexivity; exfalso;
  match goal with K : beq t _ = true |- _ => apply beq_eq in K; subst t end.
  - apply (H V10 "HTTP/1.0"%string); cbn; auto.
  - apply (H V11 "HTTP/1.1"%string); cbn; auto.
  - apply (H V2 "HTTP/2"%string); cbn; auto.
  - apply (H V3 "HTTP/3"%string); cbn; auto.
Qed.
Lemma version_from_str_spec t v : v <> VNone -> (version_of_str t = v <-> exists s, In (v, s) version_names /\ t = str s).
Proof.
  intros Hv. unfold version_of_str. split.
  - intros H. repeat match type of H with
    | (if beq t ?s then _ else _) = _ => destruct (beq t s) eqn:?E
    end; subst v; try contradiction;
    match goal with K : beq t _ = true |- _ => apply beq_eq in K; subst t end; eexists; (split; [|reflexivity]); cbn; auto 10.
  - intros (s & H & ->). cbn in H. repeat (destruct H as [H|H]; [injection H as <- <-; reflexivity|]). destruct H.
Qed.

(** ** Checking concrete headers *)
Definition name_okb (n : bytes) : bool := forallb is_header_name_token n && match n with [] => false | _ => true end.
Lemma name_okb_ok n : name_okb n = true -> name_ok n.
Proof.
  unfold name_okb. rewrite andb_true_iff. intros [H1 H2]. split; [destruct n; discriminate|].
  apply (forallb_Forall is_header_name_token tchar); [apply header_name_token_spec|exact H1].
Qed.
Definition value_okb (v : bytes) : bool :=
  forallb (fun b => (b <? 256) && negb (b =? 13)) v && match v with b :: _ => negb (b =? 32) | [] => true end.
Lemma value_okb_ok v : value_okb v = true -> value_ok v.
Proof.
  unfold value_okb. rewrite andb_true_iff. intros [H1 H2]. rewrite forallb_forall in H1. split; [|split].
  - apply Forall_forall. intros b Hb. apply H1 in Hb. apply andb_true_iff in Hb as [Hb _]. apply N.ltb_lt, Hb.
  - intros K. apply H1 in K. discriminate.
  - destruct v as [|b v]; [discriminate|]. cbn. intros K. injection K as ->. discriminate.
Qed.
Lemma fields_okb_ok hs : forallb (fun nv => name_okb (fst nv) && value_okb (snd nv)) hs = true -> fields_ok hs.
Proof.
  intros H. apply Forall_forall. intros nv Hnv. rewrite forallb_forall in H. apply H in Hnv.
  apply andb_true_iff in Hnv as [H1 H2]. auto using name_okb_ok, value_okb_ok.
Qed.
Lemma bytes_okb_ok l : forallb (fun b => b <? 256) l = true -> bytes_ok l.
Proof. intros H. apply (forallb_Forall _ byte_ok) in H; [exact H|]. intros x. apply N.ltb_lt. Qed.

(** ** The is_partial flag *)
Lemma try_flag {A} (q : request) (r : res A) (k : A -> request * res bytes) :
  q_partial q = true -> q_partial (fst (try_ q r k)) = false -> exists a, r = Ok a /\ q_partial (fst (k a)) = false.
Proof. intros H. destruct r; cbn [try_ fst]; try congruence. eauto. Qed.
Lemma req_flag q l : bytes_ok l ->
  (q_partial (fst (req_parse q l)) = false <->
   exists wire rest m t v hs, l = wire ++ rest /\ In m known_methods /\ In v known_versions /\
     request_head wire (method_str m) t (version_str v) hs).
Proof.
  intros Hl. rewrite req_parse_eq. cbn [fst]. split.
  - intros H. unfold req_parse_buffer in H. cbv zeta in H.
    apply try_flag in H as ([u1 l1] & H1 & H); [|reflexivity].
    apply try_flag in H as ([m l2] & H2 & H); [|reflexivity].
    apply try_flag in H as ([u3 l3] & H3 & H); [|reflexivity].
    apply try_flag in H as ([t l4] & H4 & H); [|reflexivity].
    apply try_flag in H as ([u5 l5] & H5 & H); [|reflexivity].
    apply try_flag in H as ([v l6] & H6 & H); [|reflexivity].
    apply try_flag in H as ([u7 l7] & H7 & H); [|reflexivity].
    destruct (parse_header l7) as [h r] eqn:E8.
    apply try_flag in H as (r8 & -> & H); [|reflexivity].
    destruct (req_head_sound _ _ _ _ _ _ _ _ _ _ _ _ _ _ _ _ _ Hl H1 H2 H3 H4 H5 H6 H7 E8)
      as (wire & hs & E & Hm & Hv & Hh & _).
    exists wire, r8, m, t, v, hs. auto.
  - intros (wire & rest & m & t & v & hs & -> & Hm & Hv & Hh).
    rewrite (req_parse_head q wire m t v hs rest Hh Hm Hv).
    destruct (req_url_of m t (add_fields [] hs)); reflexivity.
Qed.
Lemma resp_flag p l : p_partial (fst (resp_parse p l)) = false <-> exists n, snd (resp_parse p l) = Ok n.
Proof.
  rewrite resp_parse_eq. cbn [fst snd]. unfold resp_parse_buffer. cbv zeta.
  assert (G : forall A (p : response) (r : res A) (k : A -> response * res bytes), p_partial p = true ->
    (forall a, p_partial (fst (k a)) = false <-> exists b, snd (k a) = Ok b) ->
    (p_partial (fst (try_ p r k)) = false <-> exists b, snd (try_ p r k) = Ok b)).
  { intros A p0 r k Hp Hk. destruct r as [a|e| |]; cbn [try_ fst snd]; [apply Hk|..];
    (split; [congruence|intros (b & K); discriminate]). }
  match goal with |- _ <-> exists n, match snd ?x with _ => _ end = _ => 
    cut (p_partial (fst x) = false <-> exists b, snd x = Ok b) end.
  { intros K. rewrite K. split.
    - intros (b & ->). eauto.
    - intros (n & H). match type of H with match ?x with _ => _ end = _ => destruct x end; try discriminate. eauto. }
  do 7 (apply G; [reflexivity|intros [? ?]]). destruct (parse_header _) as [h r].
  apply G; [reflexivity|]. intros a. cbn. split; [eauto|reflexivity].
Qed.

(** ** Reason phrases *)
Lemma reason_lookup_in t c s : In (c, s) t -> NoDup (map fst t) -> reason_lookup t c = Some (str s).
Proof.
  induction t as [|[c' s'] t IH]; intros H N; [destruct H|]. cbn [reason_lookup]. cbn [map fst] in N. inversion N as [|? ? N1 N2]; subst.
  destruct H as [E|H]; [injection E as -> ->; rewrite N.eqb_refl; reflexivity|].
  destruct (c' =? c) eqn:E; [|apply IH; assumption]. apply N.eqb_eq in E. subst c'. exfalso. apply N1.
  exact (List.in_map fst _ _ H).
Qed.
Lemma reason_registered c t : 100 <= c <= 999 -> ~ In c [103; 203; 425] -> (canonical_reason c = Some t <-> registered c t).
Proof.
  intros Hc Hx.
  assert (G : existsb (N.eqb c) [103; 203; 425] || match canonical_reason c, reason_lookup iana_reasons c with
    | Some a, Some b => beq a b | None, None => true | _, _ => false end = true).
  { revert c Hc Hx. intros c Hc _. revert c Hc. apply code_sweep. vm_compute. reflexivity. }
  apply orb_true_iff in G as [G|G].
  { exfalso. apply Hx. apply existsb_exists in G as (x & G & E). apply N.eqb_eq in E. subst x. exact G. }
  assert (R : forall b, reason_lookup iana_reasons c = Some b <-> registered c b).
  { intros b. split.
    - unfold registered. generalize iana_reasons as l. induction l as [|[c' s'] l IH]; [discriminate|]. cbn [reason_lookup].
      destruct (c' =? c) eqn:E; [intros H; injection H as <-; apply N.eqb_eq in E; subst; exists s'; split; [left|]; reflexivity|].
      intros H. apply IH in H as (s & H1 & H2). exists s. split; [right; exact H1|exact H2].
    - intros (s & H & ->). apply reason_lookup_in; [exact H|].
      assert (D : (fix f (l : list N) : bool := match l with [] => true | x :: l' => negb (existsb (N.eqb x) l') && f l' end) (map fst iana_reasons) = true) by (vm_compute; reflexivity).
      revert D. generalize (map fst iana_reasons) as l. induction l as [|x l IH]; intros D; constructor.
      + intros K. apply andb_true_iff in D as [D _]. apply negb_true_iff in D.
        assert (E : existsb (N.eqb x) l = true) by (apply existsb_exists; exists x; split; [exact K|apply N.eqb_refl]). congruence.
      + apply IH. apply andb_true_iff in D as [_ D]. exact D. }
  rewrite <- R. destruct (canonical_reason c) as [a|], (reason_lookup iana_reasons c) as [b|]; try discriminate.
  - apply beq_eq in G. subst b. tauto.
  - split; discriminate.
Qed.
