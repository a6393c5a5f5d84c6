(** Lemmas on whole HTTP/2 connections. *)
From Coq Require Import Ascii String NArith ZArith Lia Bool List ZifyBool ZifyNat ZifyN.
From Verif Require Import Base P_Base S_Utf8 S_Http1 M_Header M_Url M_Http1 M_Hpack S_Hpack S_HpackApi S_Near P_Near S_Http1Api S_Url M_Frame M_H2 S_Frame S_H2Api S_Session
  P_Frame P_Settings P_Ctl P_Data P_H2 P_H2Msg T_Frame T_H2 P_Stream.
Import ListNotations.
Local Open Scope N_scope.
Ltac Zify.zify_post_hook ::= Z.div_mod_to_equations.

(** ** One frame *)
Lemma fh_parse_split l h r : fh_parse l = Ok (h, r) -> exists c, l = c ++ r /\ length c = 9%nat /\ forall x, fh_parse (c ++ x) = Ok (h, x).
Proof.
  unfold fh_parse. change FRAME_HEADER_BYTES with 9. destruct (N.ltb_spec (blen l) 9) as [K|K]; [discriminate|]. intros E.
  do 9 (destruct l as [|?b l]; [unfold blen in K; cbn in K; lia|]).
  exists [b; b0; b1; b2; b3; b4; b5; b6; b7]. 
  assert (E2 : r = l). { cbn in E. destruct (flag_new _); [|discriminate E]. injection E as _ <-. reflexivity. }
  subst r. split; [reflexivity|]. split; [reflexivity|]. intros x.
  replace (blen _ <? 9) with false by (unfold blen; cbn [app length]; lia). cbn in E |- *.
  destruct (flag_new _); [|discriminate E]. injection E as E. rewrite E. reflexivity.
Qed.
Lemma fh_parse_short l : blen l < 9 -> fh_parse l = Err (EHttp2 Short).
Proof. intros H. unfold fh_parse. change FRAME_HEADER_BYTES with 9. apply N.ltb_lt in H. rewrite H. reflexivity. Qed.
Lemma recv_split t L l t1 f r : recv t L l = (t1, Ok (f, r)) -> exists c, l = c ++ r /\
  (forall x, recv t L (c ++ x) = (t1, Ok (f, x))) /\ forall p s, c = p ++ s -> s <> [] -> recv t L p = (t, Err (EHttp2 Short)).
Proof.
  unfold recv. destruct (fh_parse l) as [[h l1]| | |] eqn:E; try discriminate. apply fh_parse_split in E as (c & -> & C & E).
  destruct (take_N (fh_length h) l1) as [[pl rest]|] eqn:T; [|discriminate]. apply take_N_some in T as [-> T].
  destruct (frame_parse t h pl L) as [t' [f'| | |]] eqn:F; try discriminate. intros K. injection K as <- <- <-.
  exists (c ++ pl). split; [rewrite <- app_assoc; reflexivity|]. split.
  - intros x. rewrite <- app_assoc, E. rewrite take_N_app by exact T. rewrite F. reflexivity.
  - intros p s K N. apply app_prefix in K; [|exact N]. destruct K as [(u & -> & U)|(u & -> & U)].
    + rewrite fh_parse_short; [reflexivity|]. rewrite app_length in C. destruct u; [contradiction|]. cbn [length] in C. unfold blen. lia.
    + rewrite E. replace (take_N (fh_length h) u) with (@None (bytes * bytes)); [reflexivity|]. symmetry. apply take_N_none.
      rewrite <- T, U, blen_app. destruct s; [contradiction|]. rewrite blen_cons. lia.
Qed.

(** ** Many frames *)
Lemma reads_app L t l t1 fs l1 : reads L t l t1 fs l1 -> forall t2 gs l2, reads L t1 l1 t2 gs l2 -> reads L t l t2 (fs ++ gs) l2.
Proof. induction 1; intros; cbn [app]; [assumption|]. eapply rd_frame; eauto. Qed.
Lemma reads_more L t l t1 fs l1 : reads L t l t1 fs l1 -> forall x, reads L t (l ++ x) t1 fs (l1 ++ x).
Proof.
  induction 1 as [|t l t1 f l1 t2 fs l2 E _ IH]; intros x; [constructor|].
  apply recv_split in E as (c & -> & E & _). eapply rd_frame; [|apply IH]. rewrite <- app_assoc. apply E.
Qed.
Lemma received_reads L t l t1 fs : received L t l t1 fs -> reads L t l t1 fs [].
Proof. induction 1; [constructor|eapply rd_frame; eauto]. Qed.
Lemma recv_reads L t l t1 f rest : recv t L (l ++ rest) = (t1, Ok (f, rest)) -> reads L t l t1 [f] [].
Proof.
  intros E. apply recv_split in E as (c & K & E & _). apply app_inv_tail in K. subst c. specialize (E []). rewrite app_nil_r in E.
  eapply rd_frame; [exact E|constructor].
Qed.
Lemma reads_short L t l t1 fs : reads L t l t1 fs [] -> forall p s, l = p ++ s -> s <> [] ->
  exists t2 gs r more, reads L t p t2 gs r /\ recv t2 L r = (t2, Err (EHttp2 Short)) /\ fs = gs ++ more /\ more <> [].
Proof.
  intros H. remember [] as e eqn:Ee. induction H as [t l|t l t1 f l1 t2 fs l2 E _ IH]; intros p s K N.
  - subst l. symmetry in K. apply app_eq_nil in K as [_ K]. contradiction.
  - subst l2. apply recv_split in E as (c & K2 & E & P). rewrite K2 in K. apply app_prefix in K; [|exact N]. destruct K as [(u & -> & U)|(u & -> & U)].
    + exists t, [], p, (f :: fs). split; [constructor|]. split; [apply (P p u eq_refl U)|]. split; [reflexivity|discriminate].
    + destruct (IH eq_refl u s U N) as (t3 & gs & r & more & R & S & -> & M). exists t3, (f :: gs), r, more.
      split; [eapply rd_frame; [apply E|exact R]|]. split; [exact S|]. split; [reflexivity|exact M].
Qed.

(** ** The HPACK tables along the way *)
Lemma connection_prefix te td a b : connection te td (a ++ b) -> connection te td a.
Proof.
  intros (m & evs & got & X & S & H & K). exists m, evs, got. rewrite app_assoc in *. split; [exact X|].
  unfold h2_names in *. rewrite !Forall_app in *. split; [tauto|]. split; [tauto|].
  unfold all_near in *. rewrite near_from_app in *. destruct K as [K1 K2]. split; [exact K1|]. cbn [near_from] in *.
  destruct K2 as [K2 _]. apply near_block_app in K2. tauto.
Qed.
Lemma connection_step te td a b te' td' : connection te td (a ++ b) -> exchange te td [EvBlock a] = Ok (te', td', [a]) -> connection te' td' b.
Proof.
  intros (m & evs & got & X & S & H & K) E. exists m, (evs ++ [EvBlock a]), (got ++ [a]).
  rewrite exchange_app, X. cbn [bind]. rewrite E. cbn [bind]. split; [reflexivity|].
  rewrite sent_app, concat_app. cbn [sent concat]. rewrite !app_nil_r, <- app_assoc. split; [exact S|]. split; [exact H|].
  unfold all_near in *. rewrite near_from_app in K. destruct K as [K1 K2]. rewrite <- app_assoc, near_from_app. split; [exact K1|].
  cbn [app near_from after_event fst snd] in *. destruct K2 as [K2 _]. apply near_block_app in K2. tauto.
Qed.

(** ** One item *)
Lemma item_sent max L te td i more : 0 < max < 16777216 -> item_legal max L i -> connection te td (item_fields i ++ more) ->
  exists te' td' w fs, frame_encode max te (item_frame i) = Ok (te', w) /\ reads L td w td' fs [] /\ item_seen i fs /\ connection te' td' more.
Proof.
  intros M (S1 & S2 & G) C. destruct i; cbn [item_frame frame_encode item_fields app] in *.
  - exists te, td. eexists. eexists. split; [reflexivity|]. split; [|split; [constructor|exact C]]. apply (recv_reads _ _ _ _ _ []), C35_settings_roundtrip, G.
  - exists te, td. eexists. eexists. split; [reflexivity|]. split; [|split; [constructor|exact C]]. apply (recv_reads _ _ _ _ _ []), C35_ack_roundtrip.
  - exists te, td. eexists. eexists. split; [reflexivity|]. split; [|split; [constructor|exact C]]. apply (recv_reads _ _ _ _ _ []), C39_ping, G.
  - exists te, td. eexists. eexists. split; [reflexivity|]. split; [|split; [constructor|exact C]]. apply (recv_reads _ _ _ _ _ []), C39_reset; apply G.
  - exists te, td. eexists. eexists. split; [reflexivity|]. split; [|split; [constructor|exact C]]. apply (recv_reads _ _ _ _ _ []), C39_window_update; apply G.
  - exists te, td. eexists. eexists. split; [reflexivity|]. split; [|split; [constructor|exact C]]. apply (recv_reads _ _ _ _ _ []), C39_goaway; apply G.
  - destruct (C38_data_received L td max (mkData id b (flags_of es false false false)) es false false M G eq_refl) as (out & cs & la & E & R & D).
    cbn [da_id da_data] in *. exists te, td, out. eexists. rewrite E. split; [reflexivity|]. split; [apply received_reads, R|]. split; [constructor; exact D|exact C].
  - destruct G as (I & Hm & Hs & Ha & Hp & R).
    destruct (C64_request te td m a s p fs id es true max L parts_default [] Hm Hs Ha Hp R (connection_prefix _ _ _ _ C) I S2 S1 (proj2 M)) as (te' & td' & out & X & E & V).
    exists te', td', out. eexists. split; [exact E|]. split; [apply (recv_reads _ _ _ _ _ [] V)|]. split; [constructor|exact (connection_step _ _ _ _ _ _ C X)].
  - destruct G as (I & Hc & R).
    destruct (C64_response te td code fs id es true max L parts_default [] Hc R (connection_prefix _ _ _ _ C) I S2 S1 (proj2 M)) as (te' & td' & out & X & E & V).
    exists te', td', out. eexists. split; [exact E|]. split; [apply (recv_reads _ _ _ _ _ [] V)|]. split; [constructor|exact (connection_step _ _ _ _ _ _ C X)].
Qed.

(** ** All *)
Lemma session max L l : 0 < max < 16777216 -> Forall (item_legal max L) l -> forall te td more, connection te td (concat (map item_fields l) ++ more) ->
  exists te' td' w got, h2_send max te l = Ok (te', w) /\ reads L td w td' (concat got) [] /\ Forall2 item_seen l got /\ connection te' td' more.
Proof.
  intros M. induction 1 as [|i l G _ IH]; intros te td more C; cbn [map concat app] in C.
  - exists te, td, [], []. split; [reflexivity|]. split; [constructor|]. split; [constructor|exact C].
  - rewrite <- app_assoc in C. destruct (item_sent max L te td i _ M G C) as (te1 & td1 & w & fs & E & R & V & C1).
    destruct (IH _ _ _ C1) as (te2 & td2 & w2 & got & E2 & R2 & V2 & C2). exists te2, td2, (w ++ w2), (fs :: got).
    split; [cbn [h2_send]; rewrite E; cbn [bind]; rewrite E2; reflexivity|]. split; [|split; [constructor; assumption|exact C2]].
    cbn [concat]. eapply reads_app; [|exact R2]. apply (reads_more _ _ _ _ _ _ R w2).
Qed.

(** ** Streams *)
Lemma stream_octets_app id a b : stream_octets id (a ++ b) = stream_octets id a ++ stream_octets id b.
Proof. induction a as [|[] a IH]; cbn [app stream_octets]; rewrite ?IH; try reflexivity. destruct (da_id d =? id); [rewrite app_assoc|]; reflexivity. Qed.
Lemma stream_octets_data id id' f cs : stream_octets id (map (fun c => FData (mkData id' c f)) cs) = if id' =? id then concat cs else [].
Proof. induction cs as [|c cs IH]; [destruct (id' =? id); reflexivity|]. cbn [map stream_octets da_id da_data concat]. rewrite IH. destruct (id' =? id); reflexivity. Qed.
Lemma item_octets id i fs : item_seen i fs -> stream_octets id fs = sent_octets id [i].
Proof.
  intros H. destruct H; try reflexivity. rewrite stream_octets_app, stream_octets_data. cbn [stream_octets sent_octets da_id da_data].
  destruct (id0 =? id); [|reflexivity]. rewrite !app_nil_r. exact H.
Qed.
Lemma sent_octets_cons id i l : sent_octets id (i :: l) = sent_octets id [i] ++ sent_octets id l.
Proof. destruct i; cbn [sent_octets]; try reflexivity. destruct (id0 =? id); [rewrite app_nil_r|]; reflexivity. Qed.
Lemma session_octets id l got : Forall2 item_seen l got -> stream_octets id (concat got) = sent_octets id l.
Proof.
  induction 1 as [|i fs l got V _ IH]; [reflexivity|]. cbn [concat]. rewrite stream_octets_app, sent_octets_cons, IH. f_equal. apply item_octets, V.
Qed.
Lemma es_flags es eh : is_end_stream (flags_of es eh false false) = es.
Proof. destruct es, eh; reflexivity. Qed.
Lemma item_end id i fs : item_seen i fs -> stream_ended id fs = item_ends id i.
Proof.
  intros H. destruct H; try (cbn; rewrite ?andb_false_r; reflexivity); unfold stream_ended.
  - rewrite existsb_app. cbn [existsb frame_stream_id frame_is_end_stream da_id da_flags item_ends]. rewrite es_flags, orb_false_r.
    replace (existsb _ _) with false; [reflexivity|]. clear H. induction cs as [|c cs IH]; [reflexivity|].
    cbn [map existsb frame_stream_id frame_is_end_stream da_id da_flags]. rewrite es_flags, andb_false_r. exact IH.
  - cbn [existsb frame_stream_id frame_is_end_stream hf_id hf_flags item_ends]. rewrite es_flags, orb_false_r. reflexivity.
  - cbn [existsb frame_stream_id frame_is_end_stream hf_id hf_flags item_ends]. rewrite es_flags, orb_false_r. reflexivity.
Qed.
Lemma session_ended id l got : Forall2 item_seen l got -> stream_ended id (concat got) = existsb (item_ends id) l.
Proof.
  induction 1 as [|i fs l got V _ IH]; [reflexivity|]. cbn [concat existsb]. unfold stream_ended in *. rewrite existsb_app. f_equal; [apply item_end, V|exact IH].
Qed.
