(** Proofs about frames of RFC 9113 (C110). *)
From Coq Require Import Ascii String NArith ZArith Lia Bool List ZifyBool ZifyNat ZifyN.
From Verif Require Import Base S_Utf8 P_Base M_Header M_Url M_Http1 S_Http1 S_Http1Api M_Hpack S_Hpack S_HpackApi S_HpackAll S_Frame M_Frame M_H2 S_H2Api S_Build P_Helper P_Header P_Msg
  P_Frame P_Settings P_Ctl P_HpackTable P_HpackCodec P_HpackSync P_Lossy P_HpackExact P_More S_FrameAll P_FrameAll S_Rfc9113.
Import ListNotations.
Local Open Scope N_scope.

Lemma frame_octets_same ty fl r id p ty' fl' r' id' p' : r <= 1 -> r' <= 1 -> id < 2147483648 -> id' < 2147483648 ->
  frame_octets ty fl (r * 2147483648 + id) p = frame_octets ty' fl' (r' * 2147483648 + id') p' -> ty = ty' /\ fl = fl' /\ r = r' /\ id = id' /\ p = p'.
Proof.
  intros R R' I I' E. unfold frame_octets in E. apply app_same_length in E as [E ->]; [|reflexivity].
  unfold header_octets in E. apply app_same_length in E as [_ E]; [|reflexivity]. cbn [app] in E. injection E as E1 E2 E3 E4 E5 E6.
  assert (E : octets4 (r * 2147483648 + id) = octets4 (r' * 2147483648 + id')) by (unfold octets4; congruence). clear E3 E4 E5 E6.
  apply octets4_inj in E; [|lia..]. repeat split; try assumption; lia.
Qed.
Lemma recv_frame t L ty fl r id p rest t' f : idx_inv t -> bytes_ok (frame_octets ty fl (r * 2147483648 + id) p ++ rest) ->
  blen p < 16777216 -> r <= 1 -> id < 2147483648 ->
  (recv t L (frame_octets ty fl (r * 2147483648 + id) p ++ rest) = (t', Ok (f, rest)) <->
   defined_flags fl /\ exists l, unpadded fl p l /\ frame_read L t ty fl id l f t').
Proof.
  intros I B Lp R Hi. rewrite recv_iff by assumption. split.
  - intros (a & E & O). apply app_inv_tail in E. subst a. remember (frame_octets ty fl (r * 2147483648 + id) p) as a eqn:E.
    destruct O as [ty' fl' r' id' p' l f t' Lp' D R' Hi' U F]. apply frame_octets_same in E as (-> & -> & -> & -> & ->); [|assumption..]. eauto.
  - intros (D & l & U & F). exists (frame_octets ty fl (r * 2147483648 + id) p). split; [reflexivity|]. eapply of_frame; eassumption.
Qed.

(** ** Frames without header blocks *)
Lemma dep_octets_blen d : blen (dep_octets d) = 5.
Proof. reflexivity. Qed.
Lemma octets4_blen v : blen (octets4 v) = 4.
Proof. reflexivity. Qed.
Lemma rfc_frame_read t L ty fl r id p rest f : idx_inv t -> bytes_ok (frame_octets ty fl (r * 2147483648 + id) p ++ rest) ->
  blen p < 16777216 -> r <= 1 -> id < 2147483648 -> rfc_frame ty fl id p f ->
  (recv t L (frame_octets ty fl (r * 2147483648 + id) p ++ rest) = (t, Ok (f, rest)) <-> defined_flags fl /\ pad_free ty fl p).
Proof.
  intros I B Lp R Hi F. rewrite recv_frame by assumption. split.
  - intros (D & l & U & G). split; [exact D|]. intros P. destruct U as [p Q|n l _ Hn|_]; [contradiction| |auto]. right.
    remember (n :: l) as p eqn:Ep. apply (f_equal blen) in Ep as Lq. rewrite blen_cons in Lq.
    destruct F as [fl id p d A1 A2|fl id d A1 A2 A3|fl id code A1 A2|fl es A1 A2 A3|fl A1|fl q A1|fl s last code debug A1 A2 A3|fl id s inc A1 A2].
    + split; [reflexivity|]. subst p. inversion A2 as [|n' d' _ Hn' E1 E2]; subst; [contradiction|]. inversion G as [fl' id' x X Y Z W| | | | | | | | | | |]; subst.
      match goal with X : _ ++ repeat _ _ = _ |- _ => apply (f_equal (@length _)) in X; rewrite app_length, repeat_length in X end. cbn. f_equal. lia.
    + rewrite dep_octets_blen in Lq. inversion G; subst. rewrite blen_app, dep_octets_blen in Lq. lia.
    + rewrite octets4_blen in Lq. inversion G; subst. rewrite octets4_blen in Lq. lia.
    + rewrite entries_blen in Lq. inversion G; subst; try contradiction; rewrite entries_blen in Lq; lia.
    + discriminate Ep.
    + rewrite A1 in Lq. inversion G; subst. match goal with X : l = n :: l |- _ => apply (f_equal blen) in X; rewrite blen_cons in X end. lia.
    + rewrite !blen_app, !octets4_blen in Lq. inversion G; subst. rewrite !blen_app, !octets4_blen in Lq. lia.
    + rewrite octets4_blen in Lq. inversion G; subst. rewrite octets4_blen in Lq. lia.
  - intros (D & P). split; [exact D|]. destruct (N.testbit fl 3) eqn:T.
    + destruct (P T) as [->|(-> & E)].
      * exists []. split; [apply up_none, T|]. inversion F; subst; try discriminate; try (constructor; assumption).
        -- match goal with X : rfc_padded _ _ _ |- _ => inversion X; subst; contradiction end.
      * inversion F; subst. match goal with X : rfc_padded _ _ _ |- _ => inversion X as [|n d _ Hn]; subst; [contradiction|] end.
        cbn in E. injection E as ->. cbn [N.to_nat repeat] in *. rewrite app_nil_r in *. exists l. split; [apply up_pad; [exact T|lia]|constructor; assumption].
    + assert (T' : ~ flag_on fl 3) by (unfold flag_on; congruence). exists p. split; [apply up_plain, T'|].
      inversion F; subst; try (constructor; assumption). match goal with X : rfc_padded _ _ _ |- _ => inversion X; subst; [constructor; assumption|contradiction] end.
Qed.
Lemma rfc_frame_strict t L ty fl r id p rest t' f : idx_inv t -> bytes_ok (frame_octets ty fl (r * 2147483648 + id) p ++ rest) ->
  blen p < 16777216 -> r <= 1 -> id < 2147483648 -> ty <> 1 -> ty <> 5 ->
  recv t L (frame_octets ty fl (r * 2147483648 + id) p ++ rest) = (t', Ok (f, rest)) ->
  ((exists g, rfc_frame ty fl id p g) <-> strict_frame ty fl id p).
Proof.
  intros I B Lp R Hi T1 T5 H. apply recv_frame in H as (D & l & U & G); [|assumption..].
  assert (Bp : bytes_ok p) by (unfold frame_octets in B; rewrite <- app_assoc in B; apply bytes_app in B as [_ B]; apply bytes_app in B as [B _]; exact B).
  split.
  - intros (g & F). inversion F; subst; cbn [strict_frame]; auto.
    + intros P. match goal with X : rfc_padded _ _ _ |- _ => inversion X; subst; [contradiction|] end. eauto.
    + intros P. inversion U; subst; [contradiction| |auto].
      inversion G; subst; match goal with X : _ :: _ = concat _ |- _ => apply (f_equal blen) in X; rewrite blen_cons, ?entries_blen in X; change (blen []) with 0 in *; rewrite ?entries_blen in X end; lia.
  - intros S. destruct (N.testbit fl 3) eqn:T.
    + inversion U as [q Q|n q _ Hn|_]; subst; [contradiction|..].
      * inversion G; subst; try contradiction; cbn [strict_frame] in S; rewrite ?blen_cons, ?blen_app, ?dep_octets_blen, ?octets4_blen in S; try lia.
        -- destruct (S T) as (m & d & Hm & E). rewrite E. eexists. apply rf_data; [assumption|]. apply rp_pad; assumption.
        -- discriminate (S T).
        -- discriminate (S T).
        -- subst. destruct (four_more _ Bp) as (v & q & V & E & Bq); [rewrite blen_cons, blen_app, octets4_blen; lia|].
           destruct (four_more _ Bq) as (w & q' & W & E' & _). { apply (f_equal blen) in E. rewrite blen_cons, !blen_app, !octets4_blen in E. lia. }
           rewrite E, E'. exists (FGoAway (mkGoAway (v mod 2147483648) w q')). replace v with (v / 2147483648 * 2147483648 + v mod 2147483648) at 1 by lia. apply rf_goaway; lia.
      * inversion G; subst; try discriminate; cbn [strict_frame] in S; try (change (blen []) with 0 in *; lia).
        -- destruct (S T) as (m & d & Hm & E). discriminate E.
        -- eexists. apply rf_settings; eassumption.
        -- eexists. apply rf_settings_ack; eassumption.
    + assert (T' : ~ flag_on fl 3) by (unfold flag_on; congruence). inversion U; subst; try contradiction.
      inversion G; subst; try contradiction; cbn [strict_frame] in S; try (eexists; constructor; first [assumption|apply rp_plain; assumption|intuition auto]).
      * destruct S as [S1 S2]. rewrite blen_app, dep_octets_blen in S2. assert (junk = []) as -> by (destruct junk; [reflexivity|rewrite blen_cons in S2; lia]).
        rewrite app_nil_r. eexists. apply rf_priority; assumption.
      * eexists. subst. apply rf_goaway; assumption.
Qed.

(** ** Header lists *)
Lemma find_app {A} (g : A -> bool) a b : find g (a ++ b) = match find g a with Some x => Some x | None => find g b end.
Proof. induction a as [|x a IH]; [reflexivity|]. cbn [app find]. destruct (g x); [reflexivity|exact IH]. Qed.
Lemma find_absent {A} (g : A -> bool) l : Forall (fun x => g x = false) l -> find g l = None.
Proof. induction 1 as [|x l H _ IH]; [reflexivity|]. cbn. rewrite H. exact IH. Qed.
Lemma pseudo_colon n : In n pseudo_names -> exists r, n = 58 :: r.
Proof. cbn. intros [<-|[<-|[<-|[<-|[<-|[]]]]]]; eexists; reflexivity. Qed.
Lemma token_not_pseudo n : lower_token n -> ~ In n pseudo_names.
Proof. intros [_ F] K. apply pseudo_colon in K as (r & ->). inversion F as [|x l [T _] _]; subst. apply tchar_not in T. lia. Qed.
Lemma beq_false a b : a <> b -> beq a b = false.
Proof. intros N. destruct (beq a b) eqn:E; [|reflexivity]. apply beq_eq in E. contradiction. Qed.
Lemma find_once ps n : NoDup (map fst ps) ->
  find (fun f : hfield => beq (fst f) n) (rev ps) = find (fun f => beq (fst f) n) ps.
Proof.
  induction ps as [|[m v] ps IH]; intros D; [reflexivity|]. cbn [map fst] in D. inversion D as [|x l Hn D']; subst. cbn [rev find fst].
  rewrite find_app, IH by exact D'. cbn [find fst]. destruct (beq m n) eqn:E.
  - apply beq_eq in E. subst m. rewrite find_absent; [reflexivity|]. apply Forall_forall. intros [k w] K. apply beq_false. cbn. intros ->. apply Hn, (List.in_map fst _ _ K).
  - destruct (find _ ps); reflexivity.
Qed.
Lemma last_value_of n ps hs : In (str n) pseudo_names -> NoDup (map fst ps) -> Forall (fun f : hfield => lower_token (fst f)) hs ->
  last_value n (ps ++ hs) = value_of n ps.
Proof.
  intros Hn D F. unfold last_value, value_of. rewrite rev_app_distr, find_app, find_absent, find_once; [reflexivity|exact D|].
  apply Forall_rev. eapply Forall_impl; [|exact F]. intros [m v] T. apply beq_false. cbn in *. intros ->. exact (token_not_pseudo _ T Hn).
Qed.
Lemma value_of_in n ps v : NoDup (map fst ps) -> (value_of n ps = Some v <-> In (str n, v) ps).
Proof.
  intros D. unfold value_of. induction ps as [|[m w] ps IH]; cbn [find fst]; [split; [discriminate|intros []]|].
  cbn [map fst] in D. inversion D as [|x l Hn D']; subst. destruct (beq m (str n)) eqn:E.
  - apply beq_eq in E. subst m. cbn. split; [intros [= ->]; auto|]. intros [[= ->]|K]; [reflexivity|]. destruct Hn. exact (List.in_map fst _ _ K).
  - rewrite IH by exact D'. split; [right; assumption|]. intros [[= -> ->]|K]; [|exact K]. exfalso. assert (beq (str n) (str n) = true) by (apply beq_eq; reflexivity). congruence.
Qed.
Lemma other_fields ps hs : Forall (fun f : hfield => In (fst f) pseudo_names) ps -> Forall (fun f : hfield => lower_token (fst f)) hs ->
  filter (fun f : hfield => negb (existsb (beq (fst f)) pseudo_names)) (ps ++ hs) = hs.
Proof.
  intros P T. rewrite filter_app.
  replace (filter _ ps) with (@nil hfield). replace (filter _ hs) with hs. reflexivity.
  - symmetry. induction T as [|[n v] hs T _ IH]; [reflexivity|]. cbn [filter]. destruct (existsb _ _) eqn:E.
    + apply existsb_exists in E as (x & X & E). apply beq_eq in E. cbn [fst] in *. subst x. destruct (token_not_pseudo _ T X).
    + cbn [negb]. f_equal. exact IH.
  - symmetry. induction P as [|[n v] ps H _ IH]; [reflexivity|]. cbn [filter]. replace (existsb _ _) with true; [exact IH|].
    symmetry. apply existsb_exists. exists n. split; [exact H|apply beq_eq; reflexivity].
Qed.
Lemma insert_all_fields l : forall h, hm_insert_all h l = add_fields h l.
Proof. reflexivity. Qed.
Lemma insert_all_same hs : hs = hm_insert_all [] hs <-> distinct_names hs.
Proof.
  rewrite insert_all_fields. split.
  - intros E. rewrite E. apply distinct_add. exact I.
  - intros D. rewrite add_fields_distinct; [reflexivity|constructor|exact D].
Qed.
Lemma scheme_meant v : scheme_value v (scheme_named v) <-> is_utf8 v /\ blen v <= 64.
Proof.
  split.
  - intros (s & Ls & B & E). apply lossy_iff in Ls.
    assert (K : s = v).
    { unfold scheme_named in E. destruct (find _ _) as [[c n]|] eqn:F1 in E.
      - apply find_some in F1 as [I1 F1]. apply beq_eq in F1. cbn [snd] in F1. subst v s. apply lossy_same. apply utf8_valid_iff.
        cbn in I1. repeat destruct I1 as [[= <- <-]|I1]; try reflexivity. destruct I1.
      - destruct (find _ _) as [[c n]|] eqn:F2 in E.
        + exfalso. apply find_some in F2 as [I2 _]. subst c. cbn in I2. repeat destruct I2 as [I2|I2]; try discriminate I2. exact I2.
        + congruence. }
    subst s. split; [|congruence]. apply lossy_same. congruence.
  - intros [U B]. exists v. split; [|auto]. apply lossy_iff. symmetry. apply lossy_same, U.
Qed.
Lemma status_first c : c < 1000 -> (hd_error (three_digits c) <> Some 48 <-> 100 <= c).
Proof.
  intros C. unfold three_digits. cbn [hd_error]. split; [|intros H [= E]; lia]. intros H. destruct (N.lt_ge_cases c 100) as [K|K]; [|exact K]. exfalso. apply H. f_equal. lia.
Qed.
Lemma three_digits_same a b : a < 1000 -> b < 1000 -> three_digits a = three_digits b -> a = b.
Proof. intros A B. unfold three_digits. intros [= X Y Z]. lia. Qed.
Lemma part_iff {A} (P R : bytes -> A -> Prop) (Q : bytes -> Prop) n fs ps o : last_value n fs = value_of n ps -> part_meant P n ps o ->
  (forall v a, P v a -> (R v a <-> Q v)) -> (read_last R n fs o <-> forall v, value_of n ps = Some v -> Q v).
Proof.
  unfold part_meant, read_last. intros -> M H. destruct (value_of n ps) as [v|].
  - destruct M as (a & Pa & ->). split.
    + intros (b & Rb & [= ->]) w [= <-]. apply (H v b); assumption.
    + intros K. exists a. split; [|reflexivity]. apply (H v a); auto.
  - split; [intros _ v E; discriminate E|auto].
Qed.
Lemma rfc_list_iff ps hs p : rfc_header_list ps hs p -> (header_list (ps ++ hs) hs p <-> plain_list ps hs).
Proof.
  intros (Hp & D & T & Ma & Mm & Mp & Ms & Mt). unfold header_list, plain_list. rewrite other_fields, insert_all_same by assumption.
  assert (LV : forall n, In (str n) pseudo_names -> last_value n (ps ++ hs) = value_of n ps) by (intros n Hn; apply last_value_of; assumption).
  assert (Ra : read_last lossy ":authority" (ps ++ hs) (pt_authority p) <-> forall v, value_of ":authority" ps = Some v -> is_utf8 v).
  { apply (part_iff eq); [apply LV; cbn; auto|exact Ma|]. intros v a <-. rewrite lossy_iff, <- lossy_same. split; congruence. }
  assert (Rp : read_last lossy ":path" (ps ++ hs) (pt_path p) <-> forall v, value_of ":path" ps = Some v -> is_utf8 v).
  { apply (part_iff eq); [apply LV; cbn; auto|exact Mp|]. intros v a <-. rewrite lossy_iff, <- lossy_same. split; congruence. }
  assert (Rm : read_last method_value ":method" (ps ++ hs) (pt_method p) <-> forall v, value_of ":method" ps = Some v -> exists m, method_value v m).
  { apply (part_iff method_meant); [apply LV; cbn; auto|exact Mm|]. intros v a M. split; [eauto|]. intros (m & K). destruct M as [M|[M _]]; [exact M|destruct (M _ K)]. }
  assert (Rs : read_last scheme_value ":scheme" (ps ++ hs) (pt_scheme p) <-> forall v, value_of ":scheme" ps = Some v -> is_utf8 v /\ blen v <= 64).
  { apply (part_iff (fun v c => c = scheme_named v)); [apply LV; cbn; auto|exact Ms|]. intros v a ->. apply scheme_meant. }
  assert (Rt : read_last status_value ":status" (ps ++ hs) (pt_status p) <-> forall v, value_of ":status" ps = Some v -> hd_error v <> Some 48).
  { apply (part_iff (fun v c => c < 1000 /\ v = three_digits c)); [apply LV; cbn; auto 10|exact Mt|]. intros v c [C ->]. rewrite status_first by exact C.
    unfold status_value. split; [lia|]. split; [lia|reflexivity]. }
  rewrite Ra, Rm, Rp, Rs, Rt. split; [intros (_ & H); exact H|]. intros H. split; [|exact H]. destruct H as (_ & Xm & _ & Xs & Xt & _).
  apply Forall_app. split.
  - apply Forall_forall. intros [n v] K. unfold field_fine. cbn [fst snd].
    repeat match goal with |- _ /\ _ => split end; intros ->.
    + apply Xm, value_of_in; assumption.
    + exists (scheme_named v). apply scheme_meant, Xs, value_of_in; assumption.
    + apply value_of_in in K; [|exact D]. unfold part_meant in Mt. rewrite K in Mt. destruct Mt as (c & (C & ->) & _).
      exists c. split; [|reflexivity]. apply Xt in K. apply status_first in K; [lia|exact C].
  - eapply Forall_impl; [|exact T]. intros [n v] L. cbn [fst] in L.
    assert (K : forall s, In (str s) pseudo_names -> n <> str s) by (intros s I ->; exact (token_not_pseudo _ L I)).
    unfold field_fine. cbn [fst snd]. repeat match goal with |- _ /\ _ => split end; intros E; exfalso; eapply K; [|exact E| |exact E| |exact E]; cbn; auto 10.
Qed.

(** ** HEADERS *)
Lemma field_same max dyn l f d1 l' f' d1' x x' : total_size dyn <= max -> field_read max dyn l f d1 -> field_read max dyn l' f' d1' ->
  l ++ x = l' ++ x' -> l = l' /\ f = f' /\ d1 = d1' /\ x = x'.
Proof.
  intros T F F' E. pose proof (idx_of_inv max dyn T) as I.
  pose proof (decode_one_read (idx_of max dyn) l f d1 x I F) as A. pose proof (decode_one_read (idx_of max dyn) l' f' d1' x' I F') as B.
  rewrite E, B in A. unfold idx_of in A. cbn [hi_max] in A. injection A as Ed _ Ef Lb. subst d1' f'.
  apply app_same_length in E as [-> ->]; [auto|]. unfold blen in Lb. lia.
Qed.
Lemma block_app max dyn a fs d1 : total_size dyn <= max -> block_read max dyn a fs d1 -> forall b gs d2, block_read max dyn (a ++ b) gs d2 ->
  exists zs, gs = fs ++ zs /\ block_read max d1 b zs d2.
Proof.
  intros T H. induction H as [|dyn l f d1 ls fs d2 HF HB IH]; intros b gs d3 K; [exists gs; auto|].
  rewrite <- app_assoc in K. remember (l ++ ls ++ b) as w eqn:E. destruct K as [dyn|dyn l' f' d1' ls' fs' d3 HF' HB'].
  - destruct (field_read_head _ _ _ _ _ HF) as (x & l' & -> & _). discriminate E.
  - symmetry in E. pose proof (field_same _ _ _ _ _ _ _ _ _ _ T HF HF' E) as (-> & -> & -> & <-).
    destruct (IH (field_read_inv _ _ _ _ _ T HF) _ _ _ HB') as (zs & -> & Z). exists zs. auto.
Qed.
Lemma block_same max dyn a fs d1 gs d2 : total_size dyn <= max -> block_read max dyn a fs d1 -> block_read max dyn a gs d2 -> fs = gs /\ d1 = d2.
Proof.
  intros T H K. assert (K' : block_read max dyn (a ++ []) gs d2) by (rewrite app_nil_r; exact K).
  destruct (block_app _ _ _ _ _ T H _ _ _ K') as (zs & -> & Z). remember [] as w eqn:E in Z. destruct Z as [|dd l f e1 ls zs e2 Z1 Z2].
  - rewrite app_nil_r. auto.
  - destruct (field_read_head _ _ _ _ _ Z1) as (x & l' & -> & _). discriminate E.
Qed.
Lemma zeros_nth n a x b : repeat 0 n = a ++ x :: b -> x = 0.
Proof. intros E. apply (repeat_spec n 0). rewrite E. apply in_elt. Qed.
Lemma zeros_int p fl a l b v n : 1 <= p -> int_repr p fl l v -> repeat 0 n = a ++ l ++ b -> fl = 0 /\ v = 0.
Proof.
  intros P H E. assert (2 ^ 1 <= 2 ^ p) by (apply N.pow_le_mono_r; lia). change (2 ^ 1) with 2 in *.
  destruct H as [v Hv|l w H1]; cbn [app] in E; apply zeros_nth in E; lia.
Qed.
Lemma zeros_str a l b s n : str_read l s -> repeat 0 n = a ++ l ++ b -> s = [].
Proof.
  intros [h t HI HL HB|h c syms HI HL HC HB HH] E; rewrite <- app_assoc in E.
  - apply (zeros_int 7 0 a h _ _ n ltac:(lia) HI) in E as [_ Z]. destruct t; [reflexivity|]. rewrite blen_cons in Z. lia.
  - apply (zeros_int 7 128 a h _ _ n ltac:(lia) HI) in E as [Z _]. lia.
Qed.
Lemma zeros_field max dyn l f d1 x n : field_read max dyn l f d1 -> repeat 0 n = l ++ x -> f = ([], []).
Proof.
  intros [i g Hi HG|i l0 e v lv HI HL HG HS|m ln s v lv HN HM HV|fl i l0 e v lv Hfl HI HL HG HS|fl m ln s v lv Hfl HN HM HV] E.
  - cbn [app] in E. apply (zeros_nth n [] _ x) in E. lia.
  - rewrite <- app_assoc in E. apply (zeros_int 6 64 [] l0 _ _ n ltac:(lia) HI) in E as [Z _]. lia.
  - cbn [app] in E. apply (zeros_nth n [] _ _) in E. lia.
  - rewrite <- app_assoc in E. apply (zeros_int 4 fl [] l0 _ _ n ltac:(lia) HI) in E as [_ ->]. discriminate HG.
  - cbn [app] in E. rewrite <- app_assoc in E. pose proof (zeros_str [fl] _ _ _ _ HN E) as ->. apply lossy_iff in HM. subst s.
    pose proof (zeros_str (fl :: ln) lv x v n HV E) as ->. reflexivity.
Qed.
Lemma name_eq_empty m : name_eq m [] = true -> m = [].
Proof. destruct m; [reflexivity|discriminate]. Qed.
Lemma insert_empty h v : In [] (map fst (hm_insert h [] v)).
Proof.
  induction h as [|[n w] h IH]; cbn [hm_insert]; [left; reflexivity|]. destruct (name_eq n []) eqn:E.
  - apply name_eq_empty in E. subst n. left. reflexivity.
  - right. exact IH.
Qed.
Lemma insert_keeps h m v : In [] (map fst h) -> In [] (map fst (hm_insert h m v)).
Proof.
  induction h as [|[n w] h IH]; cbn [hm_insert]; [intros []|]. intros [K|K]; destruct (name_eq n m); cbn [map fst]; auto; [left|left|right|right]; auto.
Qed.
Lemma insert_all_empty l : forall h, In [] (map fst h) \/ In [] (map fst l) -> In [] (map fst (hm_insert_all h l)).
Proof.
  induction l as [|[n v] l IH]; intros h [H|H]; [exact H|destruct H|..]; change (hm_insert_all h ((n, v) :: l)) with (hm_insert_all (hm_insert h n v) l); apply IH.
  - left. apply insert_keeps, H.
  - destruct H as [H|H]; [left; cbn in H; subst n; apply insert_empty|right; exact H].
Qed.
Lemma empty_field_kept fs zs hs p : header_list (fs ++ ([], []) :: zs) hs p -> In [] (map fst hs).
Proof.
  intros (_ & _ & _ & _ & _ & _ & ->). apply insert_all_empty. right. rewrite filter_app, map_app. apply in_or_app. right. left. reflexivity.
Qed.
Lemma rfc_headers_read t L fl r id p od block ps hs pt dyn rest : idx_inv t -> bytes_ok (frame_octets 1 fl (r * 2147483648 + id) p ++ rest) ->
  blen p < 16777216 -> r <= 1 -> id < 2147483648 ->
  rfc_headers fl p od block -> block_read (hi_max t) (hi_table t) block (ps ++ hs) dyn -> rfc_header_list ps hs pt ->
  (recv t L (frame_octets 1 fl (r * 2147483648 + id) p ++ rest) = (mkIdx dyn (total_size dyn) (hi_max t), Ok (FHeaders (mkHeaders id od hs pt fl), rest)) <->
   defined_flags fl /\ (flag_on fl 3 -> hd_error p = Some 0) /\ total_size (ps ++ hs) <= L /\ plain_list ps hs).
Proof.
  intros I B Lp R Hi H Hb M. rewrite recv_frame by assumption. pose proof (rfc_list_iff _ _ _ M) as LI. destruct (inv_idx_of t I) as [_ T].
  assert (Ne : ~ In [] (map fst hs)).
  { destruct M as (_ & _ & F & _). intros K. apply in_map_iff in K as ([n v] & E & K). cbn in E. subst n. rewrite Forall_forall in F. apply F in K. destruct K as [K _]. apply K. reflexivity. }
  assert (Z : forall n pl, n <> 0 -> block_read (hi_max t) (hi_table t) (block ++ repeat 0 (N.to_nat n)) pl dyn -> ~ header_list pl hs pt).
  { intros n pl Hn K Q. destruct (block_app _ _ _ _ _ T Hb _ _ _ K) as (zs & -> & Zs). remember (repeat 0 (N.to_nat n)) as w eqn:E in Zs.
    destruct Zs as [|d l f d1 ls zs d2 Z1 Z2].
    - assert (length (@nil N) = N.to_nat n) by (rewrite E; apply repeat_length). cbn in *. lia.
    - pose proof (zeros_field _ _ _ _ _ _ _ Z1 (eq_sym E)) as ->. apply empty_field_kept in Q. contradiction. }
  split.
  - intros (D & l & U & G). split; [exact D|].
    assert (K : exists x, rfc_padded fl p x /\ x = match od with None => block | Some d => dep_octets d ++ block end /\ (flag_on fl 5 <-> od <> None)).
    { destruct H as [p block P5 P3|p d block P5 Dr P3]; eexists; (split; [exact P3|]); (split; [reflexivity|]); split; congruence. }
    destruct K as (x & P3 & Ex & P5).
    assert (K : exists z, l = x ++ repeat 0 (N.to_nat z) /\ (flag_on fl 3 -> hd_error p = Some z)).
    { destruct P3 as [p P3|n d P3 Hn]; inversion U; subst; try contradiction; [exists 0; split; [cbn; rewrite app_nil_r; reflexivity|contradiction]|].
      exists n. split; [reflexivity|auto]. }
    destruct K as (z & -> & Hz). clear U P3.
    assert (K : exists fs, block_read (hi_max t) (hi_table t) (block ++ repeat 0 (N.to_nat z)) fs dyn /\ total_size fs <= L /\ header_list fs hs pt).
    { remember (x ++ repeat 0 (N.to_nat z)) as w eqn:Ew. inversion G; subst; [eauto|]. rewrite <- app_assoc in *.
      match goal with X : dep_octets _ ++ _ = dep_octets _ ++ _ |- _ => apply app_inv_head in X; rewrite <- X end. eauto. }
    destruct K as (fs & K1 & K2 & K3). destruct (N.eq_dec z 0) as [->|Nz]; [|destruct (Z z fs Nz K1 K3)].
    cbn [N.to_nat repeat] in K1. rewrite app_nil_r in K1. destruct (block_same _ _ _ _ _ _ _ T Hb K1) as [<- _].
    split; [exact Hz|]. split; [exact K2|]. apply LI, K3.
  - intros (D & P & S & Q). split; [exact D|]. apply LI in Q.
    assert (U : forall x, rfc_padded fl p x -> unpadded fl p x).
    { intros x K. inversion K as [q P3 E1 E2|n d P3 Hn E1 E2]; subst; [apply up_plain, P3|]. specialize (P P3). cbn in P. injection P as ->. cbn [N.to_nat repeat]. rewrite app_nil_r. apply up_pad; [exact P3|lia]. }
    destruct H as [p block P5 P3|p d block P5 Dr P3]; eexists; (split; [apply U, P3|]).
    + eapply fr_headers; eassumption.
    + eapply fr_headers_prio; eassumption.
Qed.
Lemma frame_payload ty fl id p rest : bytes_ok (frame_octets ty fl id p ++ rest) -> bytes_ok p.
Proof. unfold frame_octets. rewrite <- app_assoc. intros B. apply bytes_app in B as [_ B]. apply bytes_app in B as [B _]. exact B. Qed.
Lemma rfc_headers_meant t L fl r id p od block ps hs pt dyn rest : decoder_reach t ->
  bytes_ok (frame_octets 1 fl (r * 2147483648 + id) p ++ rest) -> blen p < 16777216 -> r <= 1 -> id < 2147483648 ->
  rfc_headers fl p od block ->
  block_repr rfc_lookup (fun i => i < 127 /\ i <> 15) (fun i => i <> 15) (hi_max t) (hi_table t) block (ps ++ hs) dyn ->
  rfc_header_list ps hs pt ->
  (recv t L (frame_octets 1 fl (r * 2147483648 + id) p ++ rest) =
     (mkIdx dyn (total_size dyn) (hi_max t), Ok (FHeaders (mkHeaders id od hs pt fl), rest)) <->
   defined_flags fl /\ (flag_on fl 3 -> hd_error p = Some 0) /\ total_size (ps ++ hs) <= L /\ plain_list ps hs).
Proof.
  intros D B Lp R Hi H Hb M. pose proof (reach_inv _ D) as I. destruct (inv_idx_of t I) as [Et T].
  eapply rfc_headers_read; try eassumption.
  pose proof (proj2 (decode_rfc_block _ _ _ _ _ T Hb)) as E. unfold idx_of in Et, E.
  assert (Bb : bytes_ok block).
  { apply frame_payload in B. destruct H as [q b P5 P3|q d b P5 Dr P3]; inversion P3 as [q' Q E1 E2|n d' Q Hn E1 E2]; subst; rewrite ?bytes_ok_cons, ?bytes_ok_app in B; tauto. }
  assert (E' : decode_headers t block = (mkIdx dyn (total_size dyn) (hi_max t), Ok (ps ++ hs))) by (rewrite Et at 1; exact E).
  apply decode_iff in E' as (d' & X & Y); [|assumption..]. injection Y as <- _. exact X.
Qed.
(** ** Departures *)
Lemma padding_kept t L fl r id n d rest : decoder_reach t -> defined_flags fl -> flag_on fl 3 -> r <= 1 -> 0 < id < 2147483648 ->
  n < 256 -> bytes_ok (d ++ rest) -> blen d + 256 < 16777216 ->
  rfc_frame 0 fl id (n :: d ++ repeat 0 (N.to_nat n)) (FData (mkData id d fl)) /\
  recv t L (frame_octets 0 fl (r * 2147483648 + id) (n :: d ++ repeat 0 (N.to_nat n)) ++ rest) = (t, Ok (FData (mkData id (d ++ repeat 0 (N.to_nat n)) fl), rest)).
Proof.
  intros D F P R Hi Hn B Ld. split; [apply rf_data; [lia|]; apply rp_pad; assumption|].
  assert (Lz : blen (d ++ repeat 0 (N.to_nat n)) = blen d + n) by (rewrite blen_app; unfold blen; rewrite repeat_length; lia).
  apply bytes_app in B as [Bd Br].
  apply recv_frame; try assumption; try lia; [apply reach_inv, D| |rewrite blen_cons, Lz; lia|].
  - apply bytes_ok_app. split; [|exact Br]. unfold frame_octets, header_octets.
    assert (flag_lt : fl < 256) by (destruct F as (a & b & c & e & ->); apply flags_of_lt).
    rewrite !bytes_ok_app, !bytes_ok_cons, !bytes_ok_app. unfold octets3, octets4. rewrite !bytes_ok_cons. unfold byte_ok.
    assert (Z : bytes_ok (repeat 0 (N.to_nat n))). { apply Forall_forall. intros x X. apply repeat_spec in X. subst x. reflexivity. }
    rewrite blen_cons, Lz. repeat match goal with |- _ /\ _ => split end; try assumption; try constructor; try lia.
  - split; [exact F|]. exists (d ++ repeat 0 (N.to_nat n)). split; [apply up_pad; [exact P|lia]|]. apply fr_data. lia.
Qed.
Lemma odd_flags t L ty fl r id p rest t' f : decoder_reach t -> bytes_ok (frame_octets ty fl (r * 2147483648 + id) p ++ rest) ->
  blen p < 16777216 -> r <= 1 -> id < 2147483648 -> N.land fl 210 <> 0 ->
  recv t L (frame_octets ty fl (r * 2147483648 + id) p ++ rest) <> (t', Ok (f, rest)).
Proof.
  intros D B Lp R Hi K H. apply recv_frame in H as ((a & b & c & e & ->) & _); [|apply reach_inv, D|assumption..].
  destruct a, b, c, e; apply K; reflexivity.
Qed.
Lemma odd_types t L ty fl r id p rest t' f : decoder_reach t -> bytes_ok (frame_octets ty fl (r * 2147483648 + id) p ++ rest) ->
  blen p < 16777216 -> r <= 1 -> id < 2147483648 -> 9 <= ty ->
  recv t L (frame_octets ty fl (r * 2147483648 + id) p ++ rest) <> (t', Ok (f, rest)).
Proof.
  intros D B Lp R Hi K H. apply recv_frame in H as (_ & l & _ & G); [|apply reach_inv, D|assumption..]. inversion G; lia.
Qed.
Ltac lowers := split; [discriminate|];
  repeat (apply Forall_cons; [split; [left; unfold alpha, upper, lower; lia|unfold upper; lia]|]); apply Forall_nil.
Lemma cookie_token : lower_token (str "cookie").
Proof. change (str "cookie") with [99; 111; 111; 107; 105; 101]. lowers. Qed.
Lemma odd_lists :
  (exists p, rfc_header_list [(str ":method", str "PROPFIND")] [] p) /\ ~ plain_list [(str ":method", str "PROPFIND")] [] /\
  (exists p, rfc_header_list [(str ":status", str "099")] [] p) /\ ~ plain_list [(str ":status", str "099")] [] /\
  (exists p, rfc_header_list [] [(str "cookie", str "a"); (str "cookie", str "b")] p) /\ ~ plain_list [] [(str "cookie", str "a"); (str "cookie", str "b")].
Proof.
  assert (NM : forall m, ~ method_value (str "PROPFIND") m).
  { intros m (s & I & E). cbn in I. repeat destruct I as [[= <- <-]|I]; try discriminate E. exact I. }
  repeat match goal with |- _ /\ _ => split end.
  - exists (mkParts (Some (MExt (str "PROPFIND"))) None None None None). unfold rfc_header_list. repeat match goal with |- _ /\ _ => split end; try reflexivity.
    + constructor; [cbn; auto|constructor].
    + constructor; [intros []|constructor].
    + constructor.
    + eexists. split; [|reflexivity]. right. auto.
  - intros (_ & K & _). destruct (K (str "PROPFIND") eq_refl) as (m & X). exact (NM m X).
  - exists (mkParts None None None None (Some 99)). unfold rfc_header_list. repeat match goal with |- _ /\ _ => split end; try reflexivity.
    + constructor; [cbn; auto 10|constructor].
    + constructor; [intros []|constructor].
    + constructor.
    + eexists. split; [|reflexivity]. split; [lia|reflexivity].
  - intros (_ & _ & _ & _ & K & _). exact (K (str "099") eq_refl eq_refl).
  - exists parts_default. unfold rfc_header_list. repeat match goal with |- _ /\ _ => split end; try reflexivity; try constructor.
    + exact cookie_token.
    + constructor; [|constructor]. exact cookie_token.
  - intros (_ & _ & _ & _ & _ & K & _). inversion K as [|x l X _]; subst. discriminate X.
Qed.
