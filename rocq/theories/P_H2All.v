(** Lemmas on all kinds of frames: outcomes, accessors, sizes, PUSH_PROMISE. *)
From Coq Require Import Ascii String NArith ZArith Lia Bool List ZifyBool ZifyNat ZifyN.
From Verif Require Import Base P_Base M_Std M_Helper M_Header M_Url M_Http1 S_Http1 S_Http1Api S_Map P_Map P_Helper P_Http1 P_Msg S_Utf8 S_Url P_Url P_UrlForm
  M_Hpack S_Hpack S_HpackApi S_Near P_HpackTable P_HpackCodec P_HpackSync M_Frame M_H2 S_Frame S_H2Api S_H2Msg P_Frame P_Settings P_Ctl P_Data P_H2 P_H2Msg P_H2Req.
Import ListNotations.
Local Open Scope N_scope.
Ltac Zify.zify_post_hook ::= Z.div_mod_to_equations.

(** ** Outcomes *)
Lemma get_ok n l : (n <= length l)%nat -> exists v, get n l = Ok (v, skipn n l).
Proof.
  intros H. exists (be_dec (firstn n l)). rewrite <- (firstn_skipn n l) at 1. apply get_app. rewrite firstn_length. lia.
Qed.
Lemma settings_returns h l : fh_kind h = KSettings -> bytes_ok l -> returns (settings_parse h l).
Proof.
  intros K B. unfold settings_parse. rewrite K. change (kind_eqb KSettings KSettings) with true. cbn [negb].
  destruct (fh_id h =? 0); cbn [negb]; [|split; discriminate]. destruct (is_ack (fh_flag h)).
  - destruct l; split; discriminate.
  - apply parse_setting_total, B.
Qed.
Lemma ping_returns h l : fh_kind h = KPing -> returns (ping_parse h l).
Proof. intros K. rewrite ping_outcome by exact K. destruct (fh_id h =? 0); cbn [negb]; [|split; discriminate]. destruct (blen l =? 8); split; discriminate. Qed.
Lemma goaway_returns l : returns (goaway_parse l).
Proof.
  unfold goaway_parse. destruct (N.ltb_spec (blen l) 8) as [L|L]; [split; discriminate|]. unfold stream_parse, read_u31.
  unfold blen in L. do 8 (destruct l as [|? l]; [cbn [length] in L; lia|]). cbn [take_n]. split; discriminate.
Qed.
Lemma reset_returns h l : returns (reset_parse h l).
Proof.
  unfold reset_parse. destruct (N.eqb_spec (blen l) 4) as [L|L]; cbn [negb]; [|split; discriminate].
  destruct (get_ok 4 l) as (v & ->); [unfold blen in L; lia|]. split; discriminate.
Qed.
Lemma winupd_returns h l : fh_kind h = KWindowUpdate -> returns (winupd_parse h l).
Proof.
  intros K. unfold winupd_parse. rewrite K. change (kind_eqb KWindowUpdate KWindowUpdate) with true. cbn [negb].
  destruct (N.eqb_spec (blen l) 4) as [L|L]; cbn [negb]; [|split; discriminate].
  destruct (get_ok 4 l) as (v & ->); [unfold blen in L; lia|]. cbn [bind]. destruct (_ =? 0); split; discriminate.
Qed.
Lemma dep_load_ok l : 5 <= blen l -> exists d, dep_load l = Ok (d, skipn 5 l).
Proof.
  intros L. unfold dep_load. destruct (N.ltb_spec (blen l) 5) as [C|_]; [lia|]. unfold blen in L.
  do 5 (destruct l as [|? l]; [cbn [length] in L; lia|]). eexists. reflexivity.
Qed.
Lemma priority_returns h l : returns (priority_parse h l).
Proof.
  unfold priority_parse. destruct (N.ltb_spec (blen l) 5) as [L|L]; [rewrite dep_load_short by exact L; split; discriminate|].
  destruct (dep_load_ok l L) as (d & ->). cbn [bind]. destruct (_ =? _); split; discriminate.
Qed.
Lemma bind_returns {A B} (r : res A) (f : A -> B) : returns r -> returns (x <- r ;; Ok (f x)).
Proof. intros [P D]. destruct r; cbn [bind]; try contradiction; split; discriminate. Qed.
Lemma hdr_collect_returns max l : forall size h, returns (snd (hdr_collect max size h l)).
Proof.
  induction l as [|f l IH]; intros size h; cbn [hdr_collect]; [split; discriminate|]. destruct (_ <? _); [split; discriminate|].
  destruct (hdr_field_total h f) as [(h' & ->)|(e & ->)]; cbn [try_]; [apply IH|split; discriminate].
Qed.

(** What comes before the header block in a HEADERS payload. *)
Lemma trim_cases h l : (exists l1, trim_padding h l = Ok l1) \/ exists p r, l = p :: r /\ is_padded (fh_flag h) = true /\ fh_length h < p /\ trim_padding h l = Err (EHttp2 (TooMuchPadding p)).
Proof.
  unfold trim_padding. destruct (is_padded (fh_flag h)); [|eauto]. destruct l as [|p r]; [eauto|].
  destruct (N.ltb_spec (fh_length h) p) as [L|L]; [|eauto]. right. exists p, r. auto.
Qed.
Lemma trim_ok_iff h l l1 : trim_padding h l = Ok l1 <->
  exists pad, l = pad ++ l1 /\ (if is_padded (fh_flag h) then l = [] \/ length pad = 1%nat else pad = []) /\ Forall (fun p => p <= fh_length h) pad.
Proof.
  unfold trim_padding. destruct (is_padded (fh_flag h)).
  - destruct l as [|p r].
    + split; [intros [= <-]; exists []; auto|]. intros (pad & E & _ & _). symmetry in E. apply app_eq_nil in E as [_ ->]. reflexivity.
    + destruct (N.ltb_spec (fh_length h) p) as [L|L]; split.
      * discriminate.
      * intros (pad & E & [C|C] & F); [discriminate C|]. destruct pad as [|q [|? ?]]; try discriminate C. injection E as <- _. apply Forall_cons_iff in F as [F _]. lia.
      * intros [= <-]. exists [p]. split; [reflexivity|]. split; [right; reflexivity|]. constructor; [exact L|constructor].
      * intros (pad & E & [C|C] & F); [discriminate C|]. destruct pad as [|q [|? ?]]; try discriminate C. injection E as _ <-. reflexivity.
  - split; [intros [= <-]; exists []; auto|]. intros (pad & -> & -> & _). reflexivity.
Qed.

Lemma headers_parse_diverge t h l L : snd (headers_parse t h l L) = Diverge <->
  exists prio block, l = prio ++ block /\ length prio = (if is_priority (hf_flags h) then 5%nat else 0%nat) /\ snd (decode_headers t block) = Diverge.
Proof.
  unfold headers_parse. destruct (is_priority (hf_flags h)).
  - destruct (N.ltb_spec (blen l) 5) as [S|S].
    + rewrite dep_load_short by exact S. cbn [bind snd]. split; [discriminate|]. intros (prio & block & -> & Q & _). rewrite blen_app in S. unfold blen in S at 1. lia.
    + destruct (dep_load_ok l S) as (d & E). rewrite E. cbn [bind].
      destruct (decode_headers t (skipn 5 l)) as [t' r] eqn:D.
      assert (U : forall prio block : bytes, l = prio ++ block -> length prio = 5%nat -> block = skipn 5 l).
      { intros prio block -> Q. rewrite skipn_app, <- Q, skipn_all, Nat.sub_diag. reflexivity. }
      split.
      * intros H. exists (firstn 5 l), (skipn 5 l). split; [symmetry; apply firstn_skipn|]. split; [rewrite firstn_length; unfold blen in S; lia|]. rewrite D.
        destruct r as [fs|e| |]; cbn [snd] in *; try discriminate H; [|reflexivity]. exfalso.
        pose proof (hdr_collect_returns L fs 0 (hf_set_dep h (Some d))) as [P1 P2].
        destruct (hdr_collect L 0 (hf_set_dep h (Some d)) fs) as [h2 c]. cbn [snd] in *. destruct c; cbn [bind] in H; try discriminate H; contradiction.
      * intros (prio & block & El & Q & H). rewrite (U _ _ El Q), D in H. cbn [snd] in H. subst r. reflexivity.
  - destruct (decode_headers t l) as [t' r] eqn:D. split.
    + intros H. exists [], l. split; [reflexivity|]. split; [reflexivity|]. rewrite D. destruct r as [fs|e| |]; cbn [snd] in *; try discriminate H; [|reflexivity]. exfalso.
      pose proof (hdr_collect_returns L fs 0 h) as [P1 P2].
      destruct (hdr_collect L 0 h fs) as [h2 c]. cbn [snd] in *. destruct c; cbn [bind] in H; try discriminate H; contradiction.
    + intros (prio & block & El & Q & H). destruct prio; [|discriminate Q]. cbn [app] in El. subst block. rewrite D in H. cbn [snd] in H. subst r. reflexivity.
Qed.
Lemma headers_parse_no_panic t h l L : idx_inv t -> snd (headers_parse t h l L) <> Panic.
Proof.
  intros I. unfold headers_parse.
  assert (G : forall h1 l1, snd (let '(t', r) := decode_headers t l1 in match r with
      | Ok fs => let '(h2, c) := hdr_collect L 0 h1 fs in (t', h2, u <- c ;; Ok (blen l1))
      | Err e => (t', h1, Err e) | Panic => (t', h1, Panic) | Diverge => (t', h1, Diverge) end) <> Panic).
  { intros h1 l1. destruct (decode_outcomes t l1 I) as [NP _]. destruct (decode_headers t l1) as [t' r]. cbn [snd] in NP.
    destruct r as [fs|e| |]; try discriminate; [|contradiction]. pose proof (hdr_collect_returns L fs 0 h1) as [P1 P2].
    destruct (hdr_collect L 0 h1 fs) as [h2 c]. cbn [snd] in *. destruct c; cbn [bind]; try discriminate. contradiction. }
  destruct (is_priority (hf_flags h)); [|apply G]. destruct (N.ltb_spec (blen l) 5) as [S|S]; [rewrite dep_load_short by exact S; discriminate|].
  destruct (dep_load_ok l S) as (d & E). rewrite E. cbn [bind]. apply G.
Qed.
Lemma trim_bytes h l l1 : trim_padding h l = Ok l1 -> bytes_ok l -> bytes_ok l1.
Proof. intros H B. apply trim_ok_iff in H as (pad & -> & _). apply bytes_ok_app in B. apply B. Qed.

Lemma bind_panic {A B} (r : res A) (f : A -> B) : (x <- r ;; Ok (f x)) = Panic <-> r = Panic.
Proof. destruct r; cbn [bind]; split; intros H; (discriminate H || reflexivity). Qed.
Lemma bind_diverge {A B} (r : res A) (f : A -> B) : (x <- r ;; Ok (f x)) = Diverge <-> r = Diverge.
Proof. destruct r; cbn [bind]; split; intros H; (discriminate H || reflexivity). Qed.
Lemma frame_panic_iff t h l L : idx_inv t -> bytes_ok l ->
  (snd (frame_parse t h l L) = Panic <->
   fh_kind h = KData /\ fh_id h = 0 /\ forall p r, l = p :: r -> is_padded (fh_flag h) = true -> p <= fh_length h).
Proof.
  intros I B. unfold frame_parse. destruct (trim_cases h l) as [(l1 & T)|(p & r & -> & P & Lt & T)]; rewrite T.
  - assert (OK : forall p r, l = p :: r -> is_padded (fh_flag h) = true -> p <= fh_length h).
    { intros p r -> P. unfold trim_padding in T. rewrite P in T. destruct (N.ltb_spec (fh_length h) p) as [C|C]; [discriminate T|exact C]. }
    pose proof (trim_bytes _ _ _ T B) as B1. destruct (fh_kind h) eqn:K; cbn [snd].
    + unfold data_new. destruct (N.eqb_spec (fh_id h) 0) as [Z|Z]; cbn [bind]; split; try discriminate; auto. intros (_ & C & _). contradiction.
    + pose proof (headers_parse_no_panic t (headers_new h []) l1 L I) as NP.
      destruct (headers_parse t (headers_new h []) l1 L) as [[t' hf] r]. cbn [snd] in *. rewrite bind_panic. split; [contradiction|intros (C & _); discriminate C].
    + rewrite bind_panic. split; [intros H; destruct (priority_returns h l1); contradiction|intros (C & _); discriminate C].
    + rewrite bind_panic. split; [intros H; destruct (reset_returns h l1); contradiction|intros (C & _); discriminate C].
    + rewrite bind_panic. split; [intros H; destruct (settings_returns h l1 K B1); contradiction|intros (C & _); discriminate C].
    + split; [discriminate|intros (C & _); discriminate C].
    + rewrite bind_panic. split; [intros H; destruct (ping_returns h l1 K); contradiction|intros (C & _); discriminate C].
    + rewrite bind_panic. split; [intros H; destruct (goaway_returns l1); contradiction|intros (C & _); discriminate C].
    + rewrite bind_panic. split; [intros H; destruct (winupd_returns h l1 K); contradiction|intros (C & _); discriminate C].
    + split; [discriminate|intros (C & _); discriminate C].
    + split; [discriminate|intros (C & _); discriminate C].
  - split; [discriminate|]. intros (_ & _ & C). specialize (C p r eq_refl P). lia.
Qed.
Lemma frame_diverge_iff t h l L : bytes_ok l ->
  (snd (frame_parse t h l L) = Diverge <->
   fh_kind h = KHeaders /\ exists pad prio block, l = pad ++ prio ++ block /\
     length pad = (if is_padded (fh_flag h) then 1%nat else 0%nat) /\ Forall (fun p => p <= fh_length h) pad /\
     length prio = (if is_priority (fh_flag h) then 5%nat else 0%nat) /\ snd (decode_headers t block) = Diverge).
Proof.
  intros B. unfold frame_parse. destruct (trim_cases h l) as [(l1 & T)|(p & r & -> & P & Lt & T)]; rewrite T.
  - pose proof (trim_bytes _ _ _ T B) as B1. destruct (fh_kind h) eqn:K; cbn [snd].
    + unfold data_new. destruct (_ =? 0); cbn [bind]; (split; [discriminate|intros (C & _); discriminate C]).
    + pose proof (headers_parse_diverge t (headers_new h []) l1 L) as HD.
      destruct (headers_parse t (headers_new h []) l1 L) as [[t' hf] r]. cbn [snd headers_new hf_flags] in *. rewrite bind_diverge, HD. clear HD. apply trim_ok_iff in T as (pad & El & Q & F). split.
      * intros (prio & block & E1 & N1 & D). split; [reflexivity|]. exists pad, prio, block. subst l1. split; [exact El|]. split; [|auto].
        destruct (is_padded (fh_flag h)); [|subst pad; reflexivity]. destruct Q as [Q|Q]; [|exact Q]. exfalso. subst l. symmetry in Q. 
        symmetry in Q. apply app_eq_nil in Q as [_ Q]. apply app_eq_nil in Q as [_ ->]. rewrite decode_headers_nil in D. discriminate D.
      * intros (_ & pad' & prio & block & E1 & N1 & F1 & N2 & D). exists prio, block. split; [|auto].
        assert (length pad = length pad' \/ l = []) as [LE|LE].
        { destruct (is_padded (fh_flag h)); [|subst pad; left; rewrite N1; reflexivity]. destruct Q as [Q|Q]; [right; exact Q|left; rewrite N1; exact Q]. }
        { rewrite E1 in El. apply P_Huffman.app_inj_length in El as [_ El]; [symmetry; exact El|symmetry; exact LE]. }
        { exfalso. rewrite E1 in LE. apply app_eq_nil in LE as [_ LE]. apply app_eq_nil in LE as [_ ->]. rewrite decode_headers_nil in D. discriminate D. }
    + rewrite bind_diverge. split; [intros H; destruct (priority_returns h l1); contradiction|intros (C & _); discriminate C].
    + rewrite bind_diverge. split; [intros H; destruct (reset_returns h l1); contradiction|intros (C & _); discriminate C].
    + rewrite bind_diverge. split; [intros H; destruct (settings_returns h l1 K B1); contradiction|intros (C & _); discriminate C].
    + split; [discriminate|intros (C & _); discriminate C].
    + rewrite bind_diverge. split; [intros H; destruct (ping_returns h l1 K); contradiction|intros (C & _); discriminate C].
    + rewrite bind_diverge. split; [intros H; destruct (goaway_returns l1); contradiction|intros (C & _); discriminate C].
    + rewrite bind_diverge. split; [intros H; destruct (winupd_returns h l1 K); contradiction|intros (C & _); discriminate C].
    + split; [discriminate|intros (C & _); discriminate C].
    + split; [discriminate|intros (C & _); discriminate C].
  - split; [discriminate|]. intros (_ & pad & prio & block & E & N1 & F & _). exfalso. rewrite P in N1. destruct pad as [|q [|? ?]]; try discriminate N1.
    injection E as <- _. apply Forall_cons_iff in F as [F _]. lia.
Qed.

(** The decoder stays a decoder. *)
Lemma headers_parse_table t h l L : fst (fst (headers_parse t h l L)) = t \/ exists b, fst (fst (headers_parse t h l L)) = fst (decode_headers t b).
Proof.
  unfold headers_parse. destruct (if is_priority (hf_flags h) then _ else _) as [[h1 l1]| | |]; [|left; reflexivity..].
  right. exists l1. destruct (decode_headers t l1) as [t' r]. destruct r; try reflexivity. destruct (hdr_collect _ _ _ _). reflexivity.
Qed.
Lemma frame_reach t h l L : decoder_reach t -> decoder_reach (fst (frame_parse t h l L)).
Proof.
  intros R. unfold frame_parse. destruct (trim_padding h l) as [l1| | |]; try exact R. destruct (fh_kind h); try exact R.
  destruct (headers_parse_table t (headers_new h []) l1 L) as [E|(b & E)]; destruct (headers_parse t (headers_new h []) l1 L) as [[t' hf] r]; cbn [fst] in *; subst t'; [exact R|].
  apply dr_block, R.
Qed.
Lemma recv_reach t L l : decoder_reach t -> decoder_reach (fst (recv t L l)).
Proof.
  intros R. unfold recv. destruct (fh_parse l) as [[h r]| | |]; try exact R. destruct (take_N (fh_length h) r) as [[p rest]|]; [|exact R].
  pose proof (frame_reach t h p L R) as F. destruct (frame_parse t h p L) as [t' []]; exact F.
Qed.

(** ** Accessors *)
Lemma headers_parse_keeps t h l L t' hf n : headers_parse t h l L = (t', hf, Ok n) -> hf_id hf = hf_id h /\ hf_flags hf = hf_flags h.
Proof.
  assert (F : forall h f h', hdr_field h f = Ok h' -> hf_id h' = hf_id h /\ hf_flags h' = hf_flags h).
  { intros h0 [nm v] h' H. unfold hdr_field in H. repeat match type of H with context [if ?c then _ else _] => destruct c end;
    try (injection H as <-; split; reflexivity); apply bind_ok in H as (x & _ & H); injection H as <-; split; reflexivity. }
  assert (C : forall max fs size h h' , hdr_collect max size h fs = (h', Ok tt) -> hf_id h' = hf_id h /\ hf_flags h' = hf_flags h).
  { intros max fs. induction fs as [|f fs IH]; intros size h0 h' H; cbn [hdr_collect] in H; [injection H as <-; auto|].
    destruct (max <? _); [discriminate H|]. destruct (hdr_field h0 f) as [h1| | |] eqn:E; cbn [try_] in H; try discriminate H.
    apply IH in H as [-> ->]. apply F in E. exact E. }
  intros H. unfold headers_parse in H.
  assert (D : exists h1 l1, hf_id h1 = hf_id h /\ hf_flags h1 = hf_flags h /\
    (let '(t'0, r) := decode_headers t l1 in match r with
      | Ok fs => let '(h2, c) := hdr_collect L 0 h1 fs in (t'0, h2, u <- c ;; Ok (blen l1))
      | Err e => (t'0, h1, Err e) | Panic => (t'0, h1, Panic) | Diverge => (t'0, h1, Diverge) end) = (t', hf, Ok n)).
  { destruct (is_priority (hf_flags h)); [|exists h, l; auto]. destruct (dep_load l) as [[d r]| | |]; cbn [bind] in H; try discriminate H.
    exists (hf_set_dep h (Some d)), r. auto. }
  destruct D as (h1 & l1 & E1 & E2 & D). destruct (decode_headers t l1) as [t1 r]. destruct r as [fs| | |]; try discriminate D.
  destruct (hdr_collect L 0 h1 fs) as [h2 c] eqn:Q. destruct c as [[]| | |]; try discriminate D. injection D as _ <- _. apply C in Q as [-> ->]. auto.
Qed.
Lemma parse_stream_id t h l L t' f : frame_parse t h l L = (t', Ok f) -> fh_kind h <> KPriority -> fh_kind h <> KGoAway ->
  frame_stream_id f = fh_id h.
Proof.
  intros H N1 N2. unfold frame_parse in H. destruct (trim_padding h l) as [l1| | |]; try discriminate H. destruct (fh_kind h) eqn:K; try contradiction; try discriminate H.
  - unfold data_new in H. destruct (fh_id h =? 0); [discriminate H|]. injection H as _ <-. reflexivity.
  - destruct (headers_parse t (headers_new h []) l1 L) as [[t1 hf] r] eqn:E. destruct r as [n| | |]; try discriminate H. injection H as _ <-.
    apply headers_parse_keeps in E as [E _]. exact E.
  - destruct (reset_parse h l1) as [r| | |] eqn:E; try discriminate H. injection H as _ <-. unfold reset_parse in E.
    destruct (negb _); [discriminate E|]. apply bind_ok in E as ([c x] & _ & E). injection E as <-. reflexivity.
  - destruct (settings_parse h l1) as [r| | |] eqn:E; try discriminate H. injection H as _ <-. unfold settings_parse in E. rewrite K in E.
    change (kind_eqb KSettings KSettings) with true in E. cbn [negb] in E. destruct (N.eqb_spec (fh_id h) 0) as [Z|Z]; [symmetry; exact Z|discriminate E].
  - injection H as _ <-. unfold push_parse. destruct (stream_parse l1). reflexivity.
  - destruct (ping_parse h l1) as [r| | |] eqn:E; try discriminate H. injection H as _ <-. unfold ping_parse in E. rewrite K in E.
    change (kind_eqb KPing KPing) with true in E. cbn [negb] in E. destruct (N.eqb_spec (fh_id h) 0) as [Z|Z]; [symmetry; exact Z|discriminate E].
  - destruct (winupd_parse h l1) as [r| | |] eqn:E; try discriminate H. injection H as _ <-. unfold winupd_parse in E. rewrite K in E.
    change (kind_eqb KWindowUpdate KWindowUpdate) with true in E. cbn [negb] in E. destruct (negb _); [discriminate E|].
    apply bind_ok in E as ([c x] & _ & E). destruct (_ =? 0); [discriminate E|]. injection E as <-. reflexivity.
Qed.
Lemma parse_flags t h l L t' f : frame_parse t h l L = (t', Ok f) -> fh_kind h = KData \/ fh_kind h = KHeaders \/ fh_kind h = KPushPromise ->
  frame_flags f = fh_flag h.
Proof.
  intros H N. unfold frame_parse in H. destruct (trim_padding h l) as [l1| | |]; try discriminate H. destruct N as [K|[K|K]]; rewrite K in H.
  - unfold data_new in H. destruct (fh_id h =? 0); [discriminate H|]. injection H as _ <-. reflexivity.
  - destruct (headers_parse t (headers_new h []) l1 L) as [[t1 hf] r] eqn:E. destruct r as [n| | |]; try discriminate H. injection H as _ <-.
    apply headers_parse_keeps in E as [_ E]. exact E.
  - injection H as _ <-. unfold push_parse. destruct (stream_parse l1). reflexivity.
Qed.
Lemma parse_kind t h l L t' f : frame_parse t h l L = (t', Ok f) -> kind_of f = fh_kind h.
Proof.
  intros H. unfold frame_parse in H. destruct (trim_padding h l) as [l1| | |]; try discriminate H. destruct (fh_kind h) eqn:K; try discriminate H.
  - destruct (data_new h l1); try discriminate H. injection H as _ <-. reflexivity.
  - destruct (headers_parse t (headers_new h []) l1 L) as [[t1 hf] r]. destruct r; try discriminate H. injection H as _ <-. reflexivity.
  - destruct (priority_parse h l1); try discriminate H. injection H as _ <-. reflexivity.
  - destruct (reset_parse h l1); try discriminate H. injection H as _ <-. reflexivity.
  - destruct (settings_parse h l1); try discriminate H. injection H as _ <-. reflexivity.
  - injection H as _ <-. reflexivity.
  - destruct (ping_parse h l1); try discriminate H. injection H as _ <-. reflexivity.
  - destruct (goaway_parse l1); try discriminate H. injection H as _ <-. reflexivity.
  - destruct (winupd_parse h l1); try discriminate H. injection H as _ <-. reflexivity.
Qed.

(** ** Sizes *)
Lemma chunks_small J max k fs : run_ok J -> Forall (fun f => size_of f <= k) fs -> forall te evs cur t' cs, idx_inv te -> J (hi_max te) (hi_table te) (EvBlock fs :: evs) ->
  blen cur <= max + 4 * k -> block_chunks max te fs cur = Ok (t', cs) -> Forall (fun c => blen c <= max + 4 * k) cs.
Proof.
  intros (J1 & J2 & J3) F. induction F as [|f fs Hf F IH]; intros te evs cur t' cs I H C E; cbn [block_chunks] in E.
  - injection E as _ <-. constructor; [exact C|constructor].
  - destruct (J1 _ _ _ _ _ H) as (S & NR & UC & K).
    destruct (encode_field te f I S UC) as (b1 & E1 & _). pose proof (after_field_inv te f I) as I'.
    rewrite E1 in E. cbn [bind] in E. apply bind_ok in E as ([t2 cs2] & E2 & E). injection E as _ <-.
    apply encode_header_len in E1; [|assumption..].
    destruct (N.ltb_spec max (blen (fst f) + blen (snd f) + blen cur)) as [Q|Q].
    + constructor; [exact C|]. eapply IH; [exact I'|exact K| |exact E2]. rewrite blen_app, blen_nil. lia.
    + eapply IH; [exact I'|exact K| |exact E2]. rewrite blen_app. lia.
Qed.
Lemma connection_run te td fs : connection te td fs -> exists J, run_ok J /\ idx_inv te /\ J (hi_max te) (hi_table te) [EvBlock fs].
Proof.
  intros (m & evs & got & X & S & H & K).
  assert (C : concat (sent (evs ++ [EvBlock fs])) = concat (sent evs) ++ fs).
  { rewrite sent_app, concat_app. cbn [sent concat]. rewrite app_nil_r. reflexivity. }
  pose proof (h2_pool _ S H) as P.
  assert (G : forall J, run_ok J -> J m [] (evs ++ [EvBlock fs]) -> exists J, run_ok J /\ idx_inv te /\ J (hi_max te) (hi_table te) [EvBlock fs]).
  { intros J RJ HJ. destruct (exchange_more J evs RJ (hi_with_size m) (hi_with_size m) [EvBlock fs] (fresh_pair m)) as (t1 & t2 & g & E1 & I & HJ'); [exact HJ|].
    rewrite X in E1. injection E1 as <- <- <-. exists J. auto. }
  apply (G (by_place (concat (sent evs) ++ fs))); [apply by_place_ok, P|]. split; [exact K|]. split; [intros g []|rewrite C; apply incl_refl].
Qed.
Lemma frames_small max te td h k : connection te td (hf_fields h) -> Forall (fun f => size_of f <= k) (hf_fields h) ->
  hf_id h < 4294967296 -> 4 * total_size (hf_fields h) < 16777216 ->
  exists te' c cs, headers_encode max te h = Ok (te', block_octets (set_end_headers (hf_flags h)) (hf_id h) c cs) /\
    Forall (fun c => blen c <= max + 4 * k) (c :: cs).
Proof.
  intros C F I T. destruct (connection_sync _ _ _ C) as (te' & td' & b & E & D). pose proof (connection_len _ _ _ _ _ C E) as L.
  destruct (block_chunks_spec max _ _ _ _ [] E) as (c & cs & H & CC). exists te', c, cs. split.
  - unfold headers_encode, block_encode. rewrite H. cbn [bind]. rewrite block_frames_octets; [reflexivity|exact I|].
    eapply Forall_impl; [|apply blen_concat_le]. intros d Hd. cbn beta in Hd. rewrite CC in Hd. cbn [app] in Hd. lia.
  - destruct (connection_run _ _ _ C) as (J & RJ & II & HJ). eapply chunks_small; try eassumption. rewrite blen_nil. lia.
Qed.
