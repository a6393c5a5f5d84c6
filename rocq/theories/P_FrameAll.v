(** Lemmas for C98: the frame reader against the grammar of S_FrameAll. *)
From Coq Require Import Ascii String NArith ZArith Lia Bool List ZifyBool ZifyNat ZifyN.
From Verif Require Import Base S_Utf8 P_Base M_Std M_Helper M_Header M_Url M_Http1 S_Http1 S_Http1Api P_Std P_Helper P_Header P_Http1 P_Msg M_Huffman M_Hpack S_Hpack S_HpackApi
  S_HpackAll P_Huffman P_HpackTable P_HpackSync P_Lossy P_HpackExact M_Frame M_H2 S_Frame S_H2Api P_Frame P_Settings P_Ctl P_H2 P_H2All M_Build S_Build P_Build2 P_Access S_FrameAll.
Import ListNotations.
Local Open Scope N_scope.

Lemma method_value_ok v m : method_value v m <-> method_of_str (utf8_lossy v) = Ok m.
Proof.
  unfold method_value. split.
  - intros (s & I & ->). rewrite lossy_ascii by (eapply method_names_ascii, I). apply method_try_from. eauto.
  - intros H. apply method_try_from in H as (s & I & E). exists s. split; [exact I|]. apply lossy_ascii_inv in E; [exact E|].
    eapply method_names_ascii, I.
Qed.
Lemma scheme_value_ok v c : scheme_value v c <-> scheme_of_str (utf8_lossy v) = Ok c.
Proof.
  unfold scheme_value. split.
  - intros (s & H & L & ->). apply lossy_iff in H. subst s. apply scheme_named_spec, L.
  - intros H. exists (utf8_lossy v). split; [apply lossy_iff; reflexivity|].
    assert (L : blen (utf8_lossy v) <= 64) by (apply scheme_of_str_ok; eauto). split; [exact L|].
    rewrite scheme_named_spec in H by exact L. congruence.
Qed.
Lemma status_value_ok v c : status_value v c <-> status_from_bytes (utf8_lossy v) = Ok c.
Proof.
  unfold status_value. split.
  - intros (R & ->). rewrite lossy_ascii by (apply three_digits_ascii, R).
    apply from_bytes_spec; [apply bytes_ok_of, three_digits_ascii, R|]. auto.
  - intros H. destruct (proj1 (status_lossy v) (ex_intro _ c H)) as (d & R & ->).
    rewrite lossy_ascii in H by (apply three_digits_ascii, R).
    apply from_bytes_spec in H; [exact H|apply bytes_ok_of, three_digits_ascii, R].
Qed.
Lemma field_fine_ok f : field_fine f <-> pseudo_ok f.
Proof.
  unfold field_fine, pseudo_ok. split.
  - intros (A & B & C). repeat split.
    + intros E. destruct (A E) as (m & s & H). eauto.
    + intros E. destruct (B E) as (c & H). apply scheme_value_ok in H. apply scheme_of_str_ok. eauto.
    + intros E. destruct (C E) as (c & H). exists c. exact H.
  - intros (A & B & C). repeat split.
    + intros E. destruct (A E) as (m & s & H). exists m, s. exact H.
    + intros E. apply scheme_of_str_ok in B as (c & H); [|exact E]. exists c. apply scheme_value_ok, H.
    + intros E. destruct (C E) as (c & H). exists c. exact H.
Qed.

(** ** The loop *)
Definition read_from {A} (rd : bytes -> A -> Prop) (n : string) (fs : list hfield) (o0 o : option A) : Prop :=
  match last_value n fs with
  | None => o = o0
  | Some v => exists a, rd v a /\ o = Some a
  end.
Lemma last_value_cons n f fs : last_value n (f :: fs) =
  match last_value n fs with Some v => Some v | None => if beq (fst f) (str n) then Some (snd f) else None end.
Proof.
  unfold last_value. cbn [rev]. induction (rev fs) as [|g l IH]; cbn [app find option_map].
  - destruct (beq (fst f) (str n)); reflexivity.
  - destruct (beq (fst g) (str n)); [reflexivity|exact IH].
Qed.
Lemma read_from_other {A} (rd : bytes -> A -> Prop) n f fs (o0 o : option A) : fst f <> str n -> read_from rd n fs o0 o -> read_from rd n (f :: fs) o0 o.
Proof.
  unfold read_from. intros N. rewrite last_value_cons. destruct (last_value n fs); [auto|].
  apply beq_neq in N. rewrite N. auto.
Qed.
Lemma read_from_this {A} (rd : bytes -> A -> Prop) n f fs (o0 o : option A) a : fst f = str n -> rd (snd f) a -> read_from rd n fs (Some a) o -> read_from rd n (f :: fs) o0 o.
Proof.
  unfold read_from. intros E R. rewrite last_value_cons. destruct (last_value n fs); [auto|].
  apply beq_eq in E. rewrite E. intros ->. eauto.
Qed.
Lemma read_from_fun {A} (rd : bytes -> A -> Prop) n fs o0 o o' : (forall v a b, rd v a -> rd v b -> a = b) ->
  read_from rd n fs o0 o -> read_from rd n fs o0 o' -> o = o'.
Proof.
  intros F. unfold read_from. destruct (last_value n fs) as [v|]; [|congruence].
  intros (a & H & ->) (b & K & ->). f_equal. eapply F; eassumption.
Qed.
Definition others (fs : list hfield) : list hfield := filter (fun f => negb (existsb (beq (fst f)) pseudo_names)) fs.
Record collected (h : headersf) (fs : list hfield) (h' : headersf) : Prop := {
  co_id : hf_id h' = hf_id h;
  co_dep : hf_dep h' = hf_dep h;
  co_flags : hf_flags h' = hf_flags h;
  co_auth : read_from lossy ":authority" fs (pt_authority (hf_parts h)) (pt_authority (hf_parts h'));
  co_method : read_from method_value ":method" fs (pt_method (hf_parts h)) (pt_method (hf_parts h'));
  co_path : read_from lossy ":path" fs (pt_path (hf_parts h)) (pt_path (hf_parts h'));
  co_scheme : read_from scheme_value ":scheme" fs (pt_scheme (hf_parts h)) (pt_scheme (hf_parts h'));
  co_status : read_from status_value ":status" fs (pt_status (hf_parts h)) (pt_status (hf_parts h'));
  co_fields : hf_fields h' = hm_insert_all (hf_fields h) (others fs) }.
Ltac proj := cbn [hf_id hf_dep hf_fields hf_parts hf_flags hf_set_fields hf_set_parts pt_authority pt_method pt_path pt_scheme pt_status
  pt_set_authority pt_set_method pt_set_path pt_set_scheme pt_set_status fst snd] in *.
Ltac other := apply read_from_other; [cbn [fst]; (assumption || discriminate)|assumption].
Lemma hdr_all_collected fs : forall h h', hdr_all h fs = Ok h' -> collected h fs h'.
Proof.
  induction fs as [|[n v] fs IH]; intros h h' H.
  { cbn [hdr_all] in H. injection H as <-. split; reflexivity. }
  cbn [hdr_all] in H. destruct (hdr_field h (n, v)) as [h1| | |] eqn:E; try discriminate H. cbn [bind] in H.
  apply IH in H. destruct H as [Hi Hd Hf Ha Hm Hp Hs Ht Hx]. unfold hdr_field in E.
  assert (Ins : name_is_spec n = false \/ (n <> str ":authority" /\ n <> str ":method" /\ n <> str ":path" /\ n <> str ":scheme" /\ n <> str ":status") ->
     h1 = hf_set_fields h (hm_insert (hf_fields h) n v) -> collected h ((n, v) :: fs) h').
  { intros N ->. assert (M : n <> str ":authority" /\ n <> str ":method" /\ n <> str ":path" /\ n <> str ":scheme" /\ n <> str ":status").
    { destruct N as [N|N]; [|exact N]. repeat split; intros ->; discriminate N. }
    destruct M as (M1 & M2 & M3 & M4 & M5). destruct h; proj.
    constructor; try assumption; try other.
    rewrite Hx. unfold others. cbn [filter fst]. 
    assert (X : existsb (beq n) pseudo_names = false).
    { unfold pseudo_names. cbn [map existsb]. apply beq_neq in M1, M2, M3, M4, M5. rewrite M1, M2, M3, M4, M5. reflexivity. }
    rewrite X. reflexivity. }
  assert (Spec : forall k, In k pseudo_names -> n = k -> others ((n, v) :: fs) = others fs).
  { intros k K ->. unfold others. cbn [filter fst]. assert (X : existsb (beq k) pseudo_names = true); [|rewrite X; reflexivity].
    apply existsb_exists. exists k. split; [exact K|apply beq_eq; reflexivity]. }
  destruct (name_is_spec n) eqn:Sp; [|injection E as <-; apply Ins; auto].
  destruct (beq n (str ":authority")) eqn:E1.
  { apply beq_eq in E1. injection E as <-. destruct h, hf_parts; proj.
    constructor; try assumption; try (subst n; other).
    - eapply read_from_this; [exact E1|apply lossy_iff; reflexivity|exact Ha].
    - rewrite Hx. apply f_equal. symmetry. exact (Spec _ (or_introl eq_refl) E1). }
  destruct (beq n (str ":method")) eqn:E2.
  { apply beq_eq in E2. destruct (method_of_str (utf8_lossy v)) as [m| | |] eqn:V; try discriminate E. injection E as <-. destruct h, hf_parts; proj.
    constructor; try assumption; try (subst n; other).
    - eapply read_from_this; [exact E2|apply method_value_ok, V|exact Hm].
    - rewrite Hx. apply f_equal. symmetry. exact (Spec _ (or_intror (or_introl eq_refl)) E2). }
  destruct (beq n (str ":path")) eqn:E3.
  { apply beq_eq in E3. injection E as <-. destruct h, hf_parts; proj.
    constructor; try assumption; try (subst n; other).
    - eapply read_from_this; [exact E3|apply lossy_iff; reflexivity|exact Hp].
    - rewrite Hx. apply f_equal. symmetry. exact (Spec _ (or_intror (or_intror (or_introl eq_refl))) E3). }
  destruct (beq n (str ":scheme")) eqn:E4.
  { apply beq_eq in E4. destruct (scheme_of_str (utf8_lossy v)) as [m| | |] eqn:V; try discriminate E. injection E as <-. destruct h, hf_parts; proj.
    constructor; try assumption; try (subst n; other).
    - eapply read_from_this; [exact E4|apply scheme_value_ok, V|exact Hs].
    - rewrite Hx. apply f_equal. symmetry. exact (Spec _ (or_intror (or_intror (or_intror (or_introl eq_refl)))) E4). }
  destruct (beq n (str ":status")) eqn:E5.
  { apply beq_eq in E5. destruct (status_from_bytes (utf8_lossy v)) as [m| | |] eqn:V; try discriminate E. injection E as <-. destruct h, hf_parts; proj.
    constructor; try assumption; try (subst n; other).
    - eapply read_from_this; [exact E5|apply status_value_ok, V|exact Ht].
    - rewrite Hx. apply f_equal. symmetry. exact (Spec _ (or_intror (or_intror (or_intror (or_intror (or_introl eq_refl))))) E5). }
  injection E as <-. apply Ins; [|reflexivity]. right. apply beq_neq in E1, E2, E3, E4, E5. auto.
Qed.
Lemma lossy_det v a b : lossy v a -> lossy v b -> a = b.
Proof. intros H K. apply lossy_iff in H, K. congruence. Qed.
Lemma method_det v a b : method_value v a -> method_value v b -> a = b.
Proof. intros H K. apply method_value_ok in H, K. congruence. Qed.
Lemma scheme_det v a b : scheme_value v a -> scheme_value v b -> a = b.
Proof. intros H K. apply scheme_value_ok in H, K. congruence. Qed.
Lemma status_det v a b : status_value v a -> status_value v b -> a = b.
Proof. intros H K. apply status_value_ok in H, K. congruence. Qed.
Lemma collected_fun h fs a b : collected h fs a -> collected h fs b -> a = b.
Proof.
  intros [A1 A2 A3 A4 A5 A6 A7 A8 A9] [B1 B2 B3 B4 B5 B6 B7 B8 B9]. destruct a as [i1 d1 f1 p1 g1], b as [i2 d2 f2 p2 g2].
  cbn [hf_id hf_dep hf_flags hf_fields hf_parts] in *. destruct p1 as [m1 s1 a1 q1 c1], p2 as [m2 s2 a2 q2 c2]. cbn [pt_authority pt_method pt_path pt_scheme pt_status] in *.
  assert (a1 = a2) by exact (read_from_fun _ _ _ _ _ _ lossy_det A4 B4).
  assert (m1 = m2) by exact (read_from_fun _ _ _ _ _ _ method_det A5 B5).
  assert (q1 = q2) by exact (read_from_fun _ _ _ _ _ _ lossy_det A6 B6).
  assert (s1 = s2) by exact (read_from_fun _ _ _ _ _ _ scheme_det A7 B7).
  assert (c1 = c2) by exact (read_from_fun _ _ _ _ _ _ status_det A8 B8).
  subst. reflexivity.
Qed.
Lemma hdr_all_iff h fs h' : hdr_all h fs = Ok h' <-> Forall field_fine fs /\ collected h fs h'.
Proof.
  split.
  - intros H. split; [|apply hdr_all_collected, H]. assert (F : Forall pseudo_ok fs) by (apply (hdr_all_ok_iff fs h); eauto).
    eapply Forall_impl; [|exact F]. intros f. apply field_fine_ok.
  - intros [F C]. assert (P : Forall pseudo_ok fs) by (eapply Forall_impl; [|exact F]; intros f; apply field_fine_ok).
    apply (hdr_all_ok_iff fs h) in P as (h2 & E). rewrite E. f_equal. eapply collected_fun; [apply hdr_all_collected, E|exact C].
Qed.
Lemma hdr_collect_ok L h fs h' : hdr_collect L 0 h fs = (h', Ok tt) <-> total_size fs <= L /\ hdr_all h fs = Ok h'.
Proof.
  destruct (N.leb_spec (total_size fs) L) as [H|H].
  - pose proof (hdr_collect_within L fs 0 h ltac:(lia)) as W. destruct (hdr_all h fs) as [h1|e| |]; [| |contradiction..].
    + rewrite W. split; [intros [= ->]; auto|intros (_ & [= ->]); reflexivity].
    + split; [intros E; rewrite E in W; discriminate W|intros (_ & E); discriminate E].
  - split; [|intros [C _]; lia]. intros E. destruct (hdr_collect_over L fs 0 h) as (e & C); [lia..|]. rewrite E in C. discriminate C.
Qed.
(** The frame that a block gives. *)
Lemma header_list_iff h0 d fs hf :
  hdr_all (mkHeaders (fh_id h0) d [] parts_default (fh_flag h0)) fs = Ok hf <->
  exists hs p, header_list fs hs p /\ hf = mkHeaders (fh_id h0) d hs p (fh_flag h0).
Proof.
  rewrite hdr_all_iff. split.
  - intros (F & [A1 A2 A3 A4 A5 A6 A7 A8 A9]). destruct hf as [i dd f p g]. proj. subst.
    eexists _, p. split; [|reflexivity]. split; [exact F|]. split; [exact A4|]. split; [exact A5|]. split; [exact A6|]. split; [exact A7|].
    split; [exact A8|reflexivity].
  - intros (hs & p & (F & A4 & A5 & A6 & A7 & A8 & A9) & ->). split; [exact F|]. constructor; proj; try reflexivity; assumption.
Qed.

(** ** Frames *)
Lemma unpadded_iff h p l : fh_length h = blen p -> (trim_padding h p = Ok l <-> unpadded (fh_flag h) p l).
Proof.
  intros L. destruct (flag_bits (fh_flag h)) as (_ & _ & _ & P & _). unfold trim_padding. rewrite P. split.
  - destruct (N.testbit (fh_flag h) 3) eqn:T.
    + destruct p as [|n r]; [intros [= <-]; apply up_none, T|]. destruct (N.ltb_spec (fh_length h) n) as [C|C]; [discriminate|]. intros [= <-].
      apply up_pad; [exact T|]. rewrite L, blen_cons in C. lia.
    + intros [= <-]. apply up_plain. unfold flag_on. congruence.
  - intros H. inversion H as [q T|n q T C|T]; subst; unfold flag_on in T.
    + apply not_true_is_false in T. rewrite T. reflexivity.
    + rewrite T. replace (fh_length h <? n) with false; [reflexivity|]. rewrite L, blen_cons. lia.
    + rewrite T. reflexivity.
Qed.
Lemma dep_load_iff l d r : bytes_ok l -> (dep_load l = Ok (d, r) <-> dep_range d /\ l = dep_octets d ++ r).
Proof.
  intros B. split.
  - intros H. destruct (N.ltb_spec (blen l) 5) as [S|S]; [rewrite dep_load_short in H by exact S; discriminate H|].
    unfold blen in S. destruct l as [|b0 [|b1 [|b2 [|b3 [|w l]]]]]; try (cbn [length] in S; lia).
    repeat (apply bytes_ok_cons in B as [? B]). unfold byte_ok in *.
    destruct (octets4_of b0 b1 b2 b3) as (v & Hv & Ev); [assumption..|].
    change (b0 :: b1 :: b2 :: b3 :: w :: l) with ([b0; b1; b2; b3] ++ w :: l) in H |- *. rewrite Ev in H |- *.
    rewrite dep_load_exact in H by exact Hv. injection H as <- <-. unfold dep_range, dep_octets. cbn [dp_id dp_weight dp_excl].
    split; [lia|]. rewrite <- app_assoc. f_equal. f_equal. destruct (N.leb_spec 2147483648 v); lia.
  - intros [(D & W) ->]. destruct d as [id w e]. unfold dep_octets. cbn [dp_id dp_weight dp_excl] in *. rewrite <- app_assoc. cbn [app].
    rewrite dep_load_exact by (destruct e; lia). f_equal. f_equal. f_equal; destruct e; lia.
Qed.
Lemma block_collect t h l L t' hf : idx_inv t -> bytes_ok l ->
  ((exists fs, decode_headers t l = (t', Ok fs) /\ hdr_collect L 0 h fs = (hf, Ok tt)) <->
   exists fs dyn, block_read (hi_max t) (hi_table t) l fs dyn /\ t' = mkIdx dyn (total_size dyn) (hi_max t) /\ total_size fs <= L /\ hdr_all h fs = Ok hf).
Proof.
  intros I B. split.
  - intros (fs & D & C). apply decode_iff in D as (dyn & R & E); [|assumption..]. apply hdr_collect_ok in C as (S & C). exists fs, dyn. auto.
  - intros (fs & dyn & R & E & S & C). exists fs. split; [apply decode_iff; [assumption..|]; exists dyn; auto|]. apply hdr_collect_ok. auto.
Qed.
Lemma headers_read t h l L t' f : idx_inv t -> bytes_ok l ->
  ((let '(t1, hf, r) := headers_parse t (headers_new h []) l L in (t1, u <- r ;; Ok (FHeaders hf))) = (t', Ok f) <->
   frame_read L t 1 (fh_flag h) (fh_id h) l f t').
Proof.
  intros I B. destruct (flag_bits (fh_flag h)) as (_ & _ & _ & _ & P). unfold headers_parse, headers_new. cbn [hf_flags]. rewrite P.
  destruct (N.testbit (fh_flag h) 5) eqn:T.
  - split.
    + intros H. destruct (dep_load l) as [[d block]| | |] eqn:D; try discriminate H. cbn [bind] in H.
      apply dep_load_iff in D as (R & ->); [|exact B]. apply bytes_ok_app in B as [_ B].
      destruct (decode_headers t block) as [t1 r] eqn:E. destruct r as [fs| | |]; try discriminate H.
      destruct (hdr_collect L 0 _ fs) as [h2 c] eqn:C. destruct c as [[]| | |]; try discriminate H. injection H as <- <-.
      destruct (proj1 (block_collect _ _ _ _ _ _ I B) (ex_intro _ fs (conj E C))) as (fs' & dyn & Rd & -> & S & A).
      unfold hf_set_dep in A. cbn [hf_id hf_fields hf_parts hf_flags] in A. apply header_list_iff in A as (hs & p & A & ->).
      eapply fr_headers_prio; eassumption.
    + intros H. inversion H as [|fl id b fs dyn hs p N Rd S A|fl id d b fs dyn hs p N R Rd S A| | | | | | | | |]; subst; [unfold flag_on in N; congruence|].
      pose proof B as B'. apply bytes_ok_app in B' as [_ B'].
      rewrite (proj2 (dep_load_iff _ d b B) (conj R eq_refl)). cbn [bind].
      destruct (proj2 (block_collect t (mkHeaders (fh_id h) (Some d) [] parts_default (fh_flag h)) b L (mkIdx dyn (total_size dyn) (hi_max t)) (mkHeaders (fh_id h) (Some d) hs p (fh_flag h)) I B')) as (gs & E & C).
      { exists fs, dyn. split; [exact Rd|]. split; [reflexivity|]. split; [exact S|]. apply header_list_iff. eauto. }
      rewrite E. unfold hf_set_dep. cbn [hf_id hf_fields hf_parts hf_flags]. rewrite C. reflexivity.
  - split.
    + intros H. destruct (decode_headers t l) as [t1 r] eqn:E. destruct r as [fs| | |]; try discriminate H.
      destruct (hdr_collect L 0 _ fs) as [h2 c] eqn:C. destruct c as [[]| | |]; try discriminate H. injection H as <- <-.
      destruct (proj1 (block_collect _ _ _ _ _ _ I B) (ex_intro _ fs (conj E C))) as (fs' & dyn & Rd & -> & S & A).
      apply header_list_iff in A as (hs & p & A & ->).
      eapply fr_headers; [unfold flag_on; congruence|eassumption..].
    + intros H. inversion H as [|fl id b fs dyn hs p N Rd S A|fl id d b fs dyn hs p N R Rd S A| | | | | | | | |]; subst; [|unfold flag_on in N; congruence].
      destruct (proj2 (block_collect t (mkHeaders (fh_id h) None [] parts_default (fh_flag h)) l L (mkIdx dyn (total_size dyn) (hi_max t)) (mkHeaders (fh_id h) None hs p (fh_flag h)) I B)) as (gs & E & C).
      { exists fs, dyn. split; [exact Rd|]. split; [reflexivity|]. split; [exact S|]. apply header_list_iff. eauto. }
      rewrite E, C. reflexivity.
Qed.
Lemma push_read t h l L t' f : bytes_ok l ->
  ((t, @Ok frame (FPushPromise (push_parse h l))) = (t', Ok f) <-> frame_read L t 5 (fh_flag h) (fh_id h) l f t').
Proof.
  intros B. unfold push_parse, push_new, stream_parse. split.
  - intros H. destruct (N.ltb_spec (blen l) 4) as [S|S].
    + assert (E : read_u31 l = (0, l)).
      { unfold read_u31, blen in *. destruct l as [|b0 [|b1 [|b2 [|b3 l]]]]; try reflexivity. cbn [length] in S. lia. }
      rewrite E in H. injection H as <- <-. apply fr_push_short, S.
    + destruct (four_more l B) as (v & l1 & V & -> & _); [exact S|]. rewrite read_u31_octets in H by exact V. injection H as <- <-.
      replace v with (v / 2147483648 * 2147483648 + v mod 2147483648) at 1 by lia. apply fr_push; lia.
  - intros H. inversion H as [| | | | | | |fl id r q junk R Q|fl id l0 S| | |]; subst.
    + rewrite read_u31_octets by lia. do 4 f_equal. lia.
    + assert (E : read_u31 l = (0, l)); [|rewrite E; reflexivity].
      unfold read_u31, blen in *. destruct l as [|b0 [|b1 [|b2 [|b3 l]]]]; try reflexivity. cbn [length] in S. lia.
Qed.
Lemma means_known ty k : type_means ty k -> In (ty, k) frame_types \/ k = KUnregistered.
Proof. intros [H|[_ ->]]; auto. Qed.
Lemma known_means ty k : In (ty, k) frame_types -> forall k', type_means ty k' -> k' = k.
Proof. intros H k' M. eapply type_means_fun; [exact M|left; exact H]. Qed.
Lemma bind_ok {A B} (r : res A) (g : A -> B) (t t' : hindex) f :
  (t, x <- r ;; Ok (g x)) = (t', Ok f) <-> t = t' /\ exists x, r = Ok x /\ f = g x.
Proof.
  split.
  - intros H. destruct r; try discriminate H. cbn [bind] in H. injection H as <- <-. eauto.
  - intros (<- & x & -> & ->). reflexivity.
Qed.
Lemma means_inj ty ty' k : type_means ty k -> In (ty', k) frame_types -> ty = ty'.
Proof.
  intros M H. apply means_known in M as [M|M].
  - cbn in M, H. repeat (destruct M as [M|M]; [injection M as <- <-; repeat (destruct H as [H|H]; [congruence|]); contradiction|]). contradiction.
  - subst k. cbn in H. repeat (destruct H as [H|H]; [discriminate H|]). contradiction.
Qed.

Lemma frame_parse_iff t h p L t' f ty : idx_inv t -> bytes_ok p -> fh_length h = blen p -> type_means ty (fh_kind h) ->
  (frame_parse t h p L = (t', Ok f) <-> exists l, unpadded (fh_flag h) p l /\ frame_read L t ty (fh_flag h) (fh_id h) l f t').
Proof.
  intros I B Len M. destruct (flag_bits (fh_flag h)) as (Ack & _ & _ & _ & _). unfold frame_parse. split.
  - intros H. destruct (trim_padding h p) as [l| | |] eqn:T; try discriminate H.
    pose proof (trim_bytes _ _ _ T B) as B1. apply unpadded_iff in T; [|exact Len].
    assert (G : forall n, In (n, fh_kind h) frame_types -> frame_read L t n (fh_flag h) (fh_id h) l f t' ->
      exists l, unpadded (fh_flag h) p l /\ frame_read L t ty (fh_flag h) (fh_id h) l f t').
    { intros n K R. rewrite (means_inj _ _ _ M K). eauto. }
    destruct (fh_kind h) eqn:K.
    + apply bind_ok in H as (<- & d & D & ->). apply (G 0); [cbn; auto 12|]. unfold data_new in D. destruct (N.eqb_spec (fh_id h) 0) as [Z|Z]; [discriminate D|].
      injection D as <-. apply fr_data, Z.
    + apply (G 1); [cbn; auto 12|]. apply headers_read in H; assumption.
    + apply bind_ok in H as (<- & x & X & ->). apply (G 2); [cbn; auto 12|]. apply (proj1 (priority_exact h l B1)) in X as (e & d & w & j & D & W & N & -> & ->).
      apply (fr_priority L t _ _ (mkDep d w e) j); [split; assumption|exact N].
    + apply bind_ok in H as (<- & x & X & ->). apply (G 3); [cbn; auto 12|]. apply (proj1 (reset_exact h l B1)) in X as (c & C & -> & ->). apply fr_reset, C.
    + apply bind_ok in H as (<- & x & X & ->). apply (G 4); [cbn; auto 12|]. apply settings_parse_exact in X as (Z & X); [|assumption..]. rewrite Z, Ack in *.
      destruct X as [(A & -> & ->)|(A & es & -> & R & Lg & ->)]; [apply fr_settings_ack, A|apply fr_settings; [unfold flag_on; congruence|assumption..]].
    + apply (G 5); [cbn; auto 12|]. apply (push_read _ _ _ L) in H; assumption.
    + apply bind_ok in H as (<- & x & X & ->). apply (G 6); [cbn; auto 12|]. rewrite ping_outcome in X by exact K.
      destruct (N.eqb_spec (fh_id h) 0) as [Z|Z]; [|discriminate X]. destruct (N.eqb_spec (blen l) 8) as [E|E]; [|discriminate X]. injection X as <-.
      rewrite Ack, Z. apply fr_ping, E.
    + apply bind_ok in H as (<- & x & X & ->). apply (G 7); [cbn; auto 12|]. apply (proj1 (goaway_exact l B1)) in X as (r & R & A & C & ->). destruct x. apply fr_goaway; assumption.
    + apply bind_ok in H as (<- & x & X & ->). apply (G 8); [cbn; auto 12|]. apply (proj1 (winupd_exact h l K B1)) in X as (r & n & R & N & -> & ->). apply fr_window; assumption.
    + discriminate H.
    + discriminate H.
  - intros (l & U & R). apply unpadded_iff in U; [|exact Len]. rewrite U. pose proof (trim_bytes _ _ _ U B) as B1.
    assert (Z : forall n k, In (n, k) frame_types -> ty = n -> fh_kind h = k) by (intros n k N E; subst n; exact (known_means _ _ N _ M)).
    pose proof R as R0. inversion R; subst; match type of R0 with frame_read _ _ ?n _ _ _ _ _ => 
       let E := fresh "K" in 
       first [ assert (E : fh_kind h = KData) by (apply (Z 0); [cbn; tauto|reflexivity])
             | assert (E : fh_kind h = KHeaders) by (apply (Z 1); [cbn; tauto|reflexivity])
             | assert (E : fh_kind h = KPriority) by (apply (Z 2); [cbn; tauto|reflexivity])
             | assert (E : fh_kind h = KReset) by (apply (Z 3); [cbn; tauto|reflexivity])
             | assert (E : fh_kind h = KSettings) by (apply (Z 4); [cbn; tauto|reflexivity])
             | assert (E : fh_kind h = KPushPromise) by (apply (Z 5); [cbn; tauto|reflexivity])
             | assert (E : fh_kind h = KPing) by (apply (Z 6); [cbn; tauto|reflexivity])
             | assert (E : fh_kind h = KGoAway) by (apply (Z 7); [cbn; tauto|reflexivity])
             | assert (E : fh_kind h = KWindowUpdate) by (apply (Z 8); [cbn; tauto|reflexivity])]; rewrite E end.
    + apply bind_ok. split; [reflexivity|]. unfold data_new. eexists. replace (fh_id h =? 0) with false by lia. split; reflexivity.
    + apply headers_read; assumption.
    + apply headers_read; assumption.
    + apply bind_ok. split; [reflexivity|]. eexists. split; [|reflexivity]. apply (proj1 (priority_exact h _ B1)). exists (dp_excl d), (dp_id d), (dp_weight d), junk.
      destruct H as [D W]. unfold dep_octets. rewrite <- app_assoc. destruct d. auto.
    + apply bind_ok. split; [reflexivity|]. eexists. split; [|reflexivity]. apply (proj1 (reset_exact h _ B1)). eauto.
    + apply bind_ok. split; [reflexivity|]. eexists. split; [|reflexivity]. apply settings_parse_exact; [assumption..|]. split; [congruence|]. right.
      rewrite Ack. split; [apply not_true_is_false; assumption|]. eauto.
    + apply bind_ok. split; [reflexivity|]. eexists. split; [|reflexivity]. apply settings_parse_exact; [assumption..|]. split; [congruence|]. left.
      rewrite Ack. auto.
    + apply (proj2 (push_read _ _ _ L _ _ B1)). assumption.
    + apply (proj2 (push_read _ _ _ L _ _ B1)). assumption.
    + apply bind_ok. split; [reflexivity|]. eexists. split; [|reflexivity]. rewrite ping_outcome by assumption. rewrite Ack.
      replace (fh_id h =? 0) with true by lia. replace (blen l =? 8) with true by lia. reflexivity.
    + apply bind_ok. split; [reflexivity|]. eexists. split; [|reflexivity]. apply (proj1 (goaway_exact _ B1)). exists r. cbn [ga_last ga_code ga_debug]. auto.
    + apply bind_ok. split; [reflexivity|]. eexists. split; [|reflexivity]. eapply (proj1 (winupd_exact h _ _ B1)). exists r, inc. auto.
      Unshelve. assumption.
Qed.

Lemma type_range L t ty fl id l f t' : frame_read L t ty fl id l f t' -> ty < 256.
Proof. intros H. inversion H; lia. Qed.
Lemma recv_iff t L l t' f rest : idx_inv t -> bytes_ok l ->
  (recv t L l = (t', Ok (f, rest)) <-> exists a, l = a ++ rest /\ one_frame L t a f t').
Proof.
  intros I B. unfold recv. split.
  - intros H. destruct (fh_parse l) as [[h r0]| | |] eqn:F; try discriminate H.
    apply fh_parse_exact in F as (len & ty & fl & r & id & -> & Hl & Ht & D & Hr & Hi & E1 & M & E3 & E4); [|exact B].
    destruct (take_N (fh_length h) r0) as [[p rest']|] eqn:T; [|discriminate H]. apply take_N_some in T as (-> & Lp).
    apply bytes_ok_app in B as [_ B]. apply bytes_ok_app in B as [B _].
    destruct (frame_parse t h p L) as [t1 g] eqn:P. destruct g as [g| | |]; try discriminate H. injection H as -> -> ->.
    apply (frame_parse_iff _ _ _ _ _ _ ty) in P as (l & U & R); [|assumption|assumption|congruence|assumption].
    exists (frame_octets ty fl (r * 2147483648 + id) p). split; [unfold frame_octets; rewrite <- app_assoc; do 2 f_equal; congruence|].
    subst fl id. eapply of_frame; try eassumption. lia.
  - intros (a & -> & O). inversion O as [ty fl r id p l f' t1 Lp D Hr Hi U R]; subst.
    unfold frame_octets in *. rewrite <- app_assoc in *.
    assert (F : fh_parse (header_octets (blen p) ty fl (r * 2147483648 + id) ++ p ++ rest) = Ok (mkFH (blen p) (kind_new ty) fl id, p ++ rest)).
    { apply fh_parse_exact; [exact B|]. exists (blen p), ty, fl, r, id. cbn [fh_length fh_kind fh_flag fh_id].
      pose proof (type_range _ _ _ _ _ _ _ _ R). pose proof (kind_new_means ty). auto 12. }
    rewrite F. cbn [fh_length]. rewrite take_N_app by reflexivity.
    apply bytes_ok_app in B as [_ B]. apply bytes_ok_app in B as [B _].
    assert (P : frame_parse t (mkFH (blen p) (kind_new ty) fl id) p L = (t', Ok f)).
    { apply (frame_parse_iff _ _ _ _ _ _ ty); [assumption|assumption|reflexivity|apply kind_new_means|]. exists l. auto. }
    rewrite P. reflexivity.
Qed.
Lemma received_iff L : forall t l t' fs, decoder_reach t -> bytes_ok l -> (received L t l t' fs <-> frames L t l fs t').
Proof.
  intros t l t' fs R B. split.
  - intros H. induction H as [t|t l t1 f r t2 fs E H IH]; [constructor|].
    pose proof (recv_reach t L l R) as R1. rewrite E in R1. cbn [fst] in R1.
    apply recv_iff in E as (a & -> & O); [|apply reach_inv, R|exact B]. apply bytes_ok_app in B as [_ B].
    econstructor; [exact O|]. auto.
  - intros H. induction H as [t|t a f t1 b fs t2 O H IH]; [constructor|].
    assert (E : recv t L (a ++ b) = (t1, Ok (f, b))) by (apply recv_iff; [apply reach_inv, R|exact B|eauto]).
    pose proof (recv_reach t L (a ++ b) R) as R1. rewrite E in R1. cbn [fst] in R1. apply bytes_ok_app in B as [_ B].
    econstructor; [exact E|]. auto.
Qed.
