(** Lemmas for C124. *)
From Coq Require Import Ascii String NArith ZArith Lia Bool List Permutation ZifyBool ZifyNat ZifyN.
From Verif Require Import Base S_Utf8 P_Base M_Header M_Url M_Http1 S_Http1 M_Hpack S_Hpack S_HpackApi S_HpackAll P_Hpack  S_Frame P_Frame M_Frame M_H2 S_FrameAll P_FrameAll S_Rfc9113 P_Rfc9113
  S_WriteAll P_WriteAll S_RfcFrames P_RfcFrames S_RfcOn.
Import ListNotations.
Local Open Scope N_scope.

Lemma last_in i es v : last_of i es = Some v -> In (i, v) es.
Proof.
  induction es as [|[j w] es IH]; cbn [last_of]; [discriminate|]. destruct (last_of i es) as [u|]; [intros E; right; apply IH, E|].
  destruct (j =? i) eqn:K; [|discriminate]. intros E. injection E as ->. left. f_equal. lia.
Qed.
Lemma entries_legal es : Forall entry_range es -> Forall entry_legal es -> Forall entry_range (entries_of (settings_of es)) /\ Forall entry_legal (entries_of (settings_of es)).
Proof.
  intros R L. rewrite Forall_forall in R, L. assert (K : forall e, In e (entries_of (settings_of es)) -> In e es).
  { intros e I. unfold entries_of, settings_of in I. cbn in I. repeat (apply in_app_or in I as [I|I]);
    match type of I with In _ (present ?i ?o) => destruct o eqn:E; [|destruct I]; destruct I as [<-|[]]; apply last_in, E end. }
  split; apply Forall_forall; auto.
Qed.
Lemma entries_short s : blen (concat (map entry_octets (entries_of s))) <= 42.
Proof.
  unfold entries_of. destruct s as [f a b c d e g h]. cbn [st_header_table_size st_enable_push st_max_concurrent_streams st_initial_window_size st_max_frame_size st_max_header_list_size st_enable_connect_protocol].
  destruct a, b, c, d, e, g, h; cbn; unfold blen; cbn; lia.
Qed.
Lemma frame_on ty fl id p f room max dyn : blen p < 16777216 -> id < 2147483648 -> rfc_frame ty fl id p f -> room_ok room -> table_typed max dyn ->
  (sent_on room max dyn f <-> ty <> 2 /\ ~ (ty = 0 /\ flag_on fl 3) /\ (ty = 7 -> blen p <= room)).
Proof.
  intros LP LI RF [R1 R2] TT.
  assert (FT : frame_typed f).
  { unfold frame_typed, u32. destruct RF as [fl id p l I P|fl id d I [D1 D2] N|fl id code I C|fl es F R L|fl F|fl l B|fl r last code debug R LA C|fl id r inc R I]; cbn [da_id pr_id pr_dep ga_last ga_code ga_debug wu_id wu_inc rs_id rs_code]; try lia; try (cbn; constructor; fail).
    - destruct (entries_legal es R L) as [K _]. eapply Forall_impl; [|exact K]. intros e [_ E]. exact E.
    - rewrite !blen_app in LP. lia. }
  assert (EN : (exists b t, frame_encode room (table_of max dyn) f = Ok (t, b))).
  { destruct (frame_runs room max dyn f TT FT) as [(b & dyn' & E & _)|(_ & d & _ & K & _)]; [eauto|lia]. }
  destruct EN as (b & t & E). assert (PL : frame_plain f b) by (destruct RF; exact Logic.I).
  pose proof (written_conforms room max dyn f t b) as W.
  assert (X : sent_on room max dyn f <-> frame_fine room max dyn f).
  { split.
    - intros (t' & b' & E' & C). rewrite E in E'. injection E' as <- <-. apply W in C; [apply C|assumption..].
    - intros F. exists t, b. split; [exact E|]. apply W; try assumption. split; [exact F|]. split; [|reflexivity].
      apply (proj1 (frame_all room max dyn f t b TT FT)) in E as (dyn' & -> & _). reflexivity. }
  rewrite X. clear W X PL E. split.
  - intros F. destruct RF as [fl id p l I P|fl id d I [D1 D2] N|fl id code I C|fl es F' R L|fl F'|fl l B|fl r last code debug R LA C|fl id r inc R I]; inversion F; subst.
    all: cbn [da_id da_data da_flags pg_payload ga_last ga_debug wu_id wu_inc rs_id] in *; repeat match goal with |- _ /\ _ => split end; try lia; try (intros [K _]; lia).
    + intros [_ K]. auto.
    + intros _. rewrite !blen_app. change (blen (octets4 (r * 2147483648 + last))) with 4. change (blen (octets4 code)) with 4. lia.
  - intros (A & B & C). destruct RF as [fl id p l I P|fl id d I [D1 D2] N|fl id code I K|fl es F' R L|fl F'|fl l Bl|fl r last code debug R LA K|fl id r inc R I].
    + constructor; cbn; [lia|]. intros K. apply B. auto.
    + lia.
    + constructor; cbn -[N.le N.lt]; lia.
    + constructor; [reflexivity|apply (entries_legal es R L)|]. pose proof (entries_short (settings_of es)). lia.
    + apply ff_settings_ack.
    + constructor; cbn; [exact Bl|lia].
    + constructor; cbn; [exact LA|]. specialize (C eq_refl). rewrite !blen_app in C. change (blen (octets4 (r * 2147483648 + last))) with 4 in C. change (blen (octets4 code)) with 4 in C. lia.
    + constructor; cbn -[N.le N.lt]; lia.
Qed.
Lemma parts_none ps hs pt : rfc_header_list ps hs pt -> (parts_fields pt = [] <-> ps = []).
Proof.
  intros (P & _ & _ & A & M & Pa & S & St). unfold part_meant in *. split.
  - intros E. destruct ps as [|[n v] ps]; [reflexivity|]. exfalso. apply Forall_inv in P. cbn [fst] in P. unfold parts_fields in E.
    apply app_eq_nil in E as [E1 E]. apply app_eq_nil in E as [E2 E]. apply app_eq_nil in E as [E3 E]. apply app_eq_nil in E as [E4 E5].
    unfold value_of in *. cbn [find] in *. change S_FrameAll.pseudo_names with (map str [":authority"; ":method"; ":path"; ":scheme"; ":status"]%string) in P. cbn [map In] in P. cbn [fst] in *.
    destruct P as [<-|[<-|[<-|[<-|[<-|[]]]]]].
    + rewrite beq_refl in A. cbn [option_map snd] in A. destruct A as (a & _ & A). rewrite A in E3. discriminate E3.
    + rewrite beq_refl in M. cbn [option_map snd] in M. destruct M as (a & _ & A'). rewrite A' in E1. discriminate E1.
    + rewrite beq_refl in Pa. cbn [option_map snd] in Pa. destruct Pa as (a & _ & A'). rewrite A' in E4. discriminate E4.
    + rewrite beq_refl in S. cbn [option_map snd] in S. destruct S as (a & _ & A'). rewrite A' in E2. discriminate E2.
    + rewrite beq_refl in St. cbn [option_map snd] in St. destruct St as (a & _ & A'). rewrite A' in E5. discriminate E5.
  - intros ->. cbn in *. unfold parts_fields. rewrite A, M, Pa, S, St. reflexivity.
Qed.
Lemma fine_accept max dyn fs : fields_sent_fine max dyn fs -> forall f, In f fs -> lower_name (fst f) <> str "accept-".
Proof. induction 1 as [dyn|dyn f fs l d1 F W _ IH]; [intros f []|]. intros g [<-|I]; [apply F|auto]. Qed.
Lemma headers_on room max dyn ps hs pt id fl t b : rfc_header_list ps hs pt -> room_ok room -> table_typed max dyn -> Forall (fun f => Forall h2_char (fst f)) dyn ->
  1 <= id < 2147483648 -> ~ flag_on fl 3 -> ~ flag_on fl 5 -> Forall sendable hs -> Forall (fun f => ~ In 94 (fst f)) hs -> let h := mkHeaders id None hs pt fl in
  frame_encode room (table_of max dyn) (FHeaders h) = Ok (t, b) -> blen b < 16777216 ->
  (conforms room max (map lower_field dyn) (FHeaders h) b (map lower_field (hi_to_vec t)) <->
   ps = [] /\ (forall f, In f hs -> fst f <> str "accept-") /\
   exists cs d, pieces room max dyn hs [] cs d /\ Forall (fun c => blen c <= room) cs /\ (flag_on fl 0 -> length cs = 1%nat)).
Proof.
  intros HL [R1 R2] TT HD I N3 N5 SD NC h E LB.
  assert (FO : Forall field_octets hs). { eapply Forall_impl; [|exact SD]. intros f (A & B & _). split; [|exact B]. eapply Forall_impl; [|exact A]. intros x X. unfold byte_ok; cbn in X; lia. }
  assert (FT : frame_typed (FHeaders h)) by (split; [unfold u32; cbn; lia|exact FO]).
  assert (LO : Forall (fun f => Forall h2_char (fst f)) hs).
  { destruct HL as (_ & _ & L & _). rewrite Forall_forall in *. intros f K. destruct (L f K) as [_ T]. specialize (NC f K). rewrite Forall_forall in *. intros x X. left. destruct (T x X). split; [assumption|]. split; [assumption|]. intros ->. exact (NC X). }
  rewrite (written_conforms room max dyn (FHeaders h) t b (map lower_field (hi_to_vec t)) ltac:(lia) TT FT E) by (cbn; auto). split.
  - intros (F & _). inversion F as [|h0 cs d A B C D P Q S| | | | | |]; subst. cbn [h hf_fields hf_parts hf_flags] in *. split; [apply (parts_none ps hs pt HL), C|].
    split; [|exists cs, d; auto]. intros f K G. apply (fine_accept _ _ _ D f K). rewrite G. reflexivity.
  - intros (A & B & cs & d & P & Q & S). split.
    + eapply headers_tokens; cbn [h hf_id hf_dep hf_parts hf_fields hf_flags]; try eassumption; [reflexivity|apply (parts_none ps hs pt HL), A|]. apply Forall_app. split; assumption.
    + split; [|reflexivity]. apply (proj1 (frame_all room max dyn _ t b TT FT)) in E as (dyn' & -> & _). reflexivity.
Qed.
