(** Proofs for C118. *)
From Coq Require Import Ascii String NArith ZArith Lia Bool List ZifyBool ZifyNat ZifyN Permutation.
From Verif Require Import Base P_Base S_Utf8 M_Header M_Url M_Http1 S_Http1 M_Hpack S_Huffman P_Huffman S_Hpack S_HpackApi P_Hpack P_HpackTable P_HpackCodec P_HpackSync S_Near S_Frame M_Frame M_H2 P_Frame P_Ctl P_Settings P_H2Msg S_FrameAll S_Rfc9113 P_Rfc9113 S_WriteAll P_WriteAll S_RfcFrames.
Import ListNotations.
Local Open Scope N_scope.

(** ** Header blocks mean one list of fields *)
Lemma tail_repr_one a v : int_tail_repr a v -> forall b w r s, int_tail_repr b w -> a ++ r = b ++ s -> a = b /\ v = w /\ r = s.
Proof.
  induction 1 as [x L|x l v L H IH]; intros b w r s B E; destruct B as [y M|y l' w M H']; cbn [app] in E; injection E as E1 E2.
  - subst. auto.
  - exfalso. lia.
  - exfalso. lia.
  - assert (x = y) by lia. subst y. destruct (IH _ _ _ _ H' E2) as (-> & -> & ->). auto.
Qed.
Lemma int_repr_one p fl a b v w r s : int_repr p fl a v -> int_repr p fl b w -> a ++ r = b ++ s -> a = b /\ v = w /\ r = s.
Proof.
  intros A B E. destruct A as [v L|l v H]; destruct B as [w M|l' w H']; cbn [app] in E.
  - injection E as E1 E2. assert (v = w) by lia. subst. auto.
  - injection E as E1 E2. exfalso. lia.
  - injection E as E1 E2. exfalso. lia.
  - injection E as E2. destruct (tail_repr_one _ _ H _ _ _ _ H' E2) as (-> & -> & ->). auto.
Qed.
Lemma str_repr_one a b s u r q : str_repr a s -> str_repr b u -> a ++ r = b ++ q -> a = b /\ s = u /\ r = q.
Proof.
  intros A B E. pose proof (decode_string_repr a s r A) as D. rewrite E, (decode_string_repr b u q B) in D.
  injection D as D1 D2. destruct (app_inj_length a b r q) as [-> ->]; [unfold blen in D2; lia|exact E|]. auto.
Qed.
Lemma int_first p fl l v r : int_repr p fl l v -> exists x l', l ++ r = x :: l' /\ fl <= x <= fl + (2 ^ p - 1).
Proof. intros H. destruct (int_repr_head p fl l v H) as (x & l' & -> & A & B). exists x, (l' ++ r). auto. Qed.
(** One field: an integer behind some flags, and what follows it. *)
Definition field_view (max : N) (d : list hfield) (a : bytes) (f : hfield) (d1 : list hfield) : Prop :=
  exists p fl i l rest, a = l ++ rest /\ int_repr p fl l i /\
   ((p = 7 /\ fl = 128 /\ rest = [] /\ rfc_lookup d i = Some f /\ d1 = d) \/
    (((p = 6 /\ fl = 64 /\ d1 = rfc_add max d f) \/ (p = 4 /\ (fl = 0 \/ fl = 16) /\ d1 = d)) /\
     ((exists e lv, i <> 0 /\ rfc_lookup d i = Some e /\ fst e = fst f /\ rest = lv /\ str_repr lv (snd f)) \/
      (exists ln lv, i = 0 /\ rest = ln ++ lv /\ str_repr ln (fst f) /\ str_repr lv (snd f))))).
Lemma field_viewed max d a f d1 : field_repr rfc_lookup (fun _ => True) (fun _ => True) max d a f d1 -> field_view max d a f d1.
Proof.
  assert (Z : forall p fl, 1 < p -> int_repr p fl [fl] 0).
  { intros p fl P. replace fl with (fl + 0) at 2 by lia. constructor. pose proof (N.pow_le_mono_r 2 2 p). change (2 ^ 2) with 4 in *. lia. }
  assert (NZ : forall i e, rfc_lookup d i = Some e -> i <> 0) by (intros i e H -> ; discriminate H).
  intros A. destruct A as [i l f _ I L|i l e v lv _ I _ L V|n ln v lv U NN V|fl i l e v lv F _ I _ L V|fl n ln v lv F U NN V].
  - exists 7, 128, i, l, []. rewrite app_nil_r. split; [reflexivity|]. split; [exact I|]. left. auto.
  - exists 6, 64, i, l, lv. split; [reflexivity|]. split; [exact I|]. right. split; [left; auto|]. left. exists e, lv. eauto 7.
  - exists 6, 64, 0, [64], (ln ++ lv). split; [reflexivity|]. split; [apply Z; lia|]. right. split; [left; auto|]. right. exists ln, lv. auto.
  - exists 4, fl, i, l, lv. split; [reflexivity|]. split; [exact I|]. right. split; [right; auto|]. left. exists e, lv. eauto 7.
  - exists 4, fl, 0, [fl], (ln ++ lv). split; [reflexivity|]. split; [apply Z; lia|]. right. split; [right; auto|]. right. exists ln, lv. auto.
Qed.
Lemma field_repr_one max d a f d1 b g d2 r s :
  field_repr rfc_lookup (fun _ => True) (fun _ => True) max d a f d1 ->
  field_repr rfc_lookup (fun _ => True) (fun _ => True) max d b g d2 -> a ++ r = b ++ s -> a = b /\ f = g /\ d1 = d2 /\ r = s.
Proof.
  intros A B E. apply field_viewed in A, B.
  destruct A as (p & fl & i & l & q & -> & I & A). destruct B as (p' & fl' & i' & l' & q' & -> & I' & B).
  rewrite <- !app_assoc in E.
  assert (PF : p = p' /\ fl = fl').
  { destruct (int_first p fl l i (q ++ r) I) as (x & t & X & R). destruct (int_first p' fl' l' i' (q' ++ s) I') as (x' & t' & X' & R').
    rewrite X, X' in E. injection E as E _. clear X X'.
    assert (K : (p = 7 /\ fl = 128) \/ (p = 6 /\ fl = 64) \/ (p = 4 /\ fl = 0) \/ (p = 4 /\ fl = 16)) by (clear -A; tauto).
    assert (K' : (p' = 7 /\ fl' = 128) \/ (p' = 6 /\ fl' = 64) \/ (p' = 4 /\ fl' = 0) \/ (p' = 4 /\ fl' = 16)) by (clear -B; tauto).
    clear -E R R' K K'.
    destruct K as [[-> ->]|[[-> ->]|[[-> ->]|[-> ->]]]]; destruct K' as [[-> ->]|[[-> ->]|[[-> ->]|[-> ->]]]]; try (split; reflexivity);
      change (2 ^ 7) with 128 in *; change (2 ^ 6) with 64 in *; change (2 ^ 4) with 16 in *; exfalso; lia. }
  destruct PF as [-> ->]. destruct (int_repr_one _ _ _ _ _ _ _ _ I I' E) as (-> & -> & E').
  destruct A as [(A1 & A2 & -> & A4 & ->)|(A1 & A2)]; destruct B as [(B1 & B2 & -> & B4 & ->)|(B1 & B2)].
  - rewrite A4 in B4. injection B4 as ->. auto.
  - exfalso. clear -A1 B1. lia.
  - exfalso. clear -A1 B1. lia.
  - assert (X : q = q' /\ f = g /\ r = s).
    { destruct f as [n v], g as [n' v']. cbn [fst snd] in *.
      destruct A2 as [(e & lv & A3 & A4 & A5 & -> & A6)|(ln & lv & A3 & -> & A4 & A5)];
      destruct B2 as [(e' & lv' & B3 & B4 & B5 & -> & B6)|(ln' & lv' & B3 & -> & B4 & B5)]; try contradiction.
      - destruct (str_repr_one _ _ _ _ _ _ A6 B6 E') as (-> & -> & ->). rewrite A4 in B4. injection B4 as ->. subst. auto.
      - rewrite <- !app_assoc in E'. destruct (str_repr_one _ _ _ _ _ _ A4 B4 E') as (-> & -> & E2).
        destruct (str_repr_one _ _ _ _ _ _ A5 B5 E2) as (-> & -> & ->). auto. }
    destruct X as (-> & -> & ->). split; [reflexivity|]. split; [reflexivity|]. split; [|reflexivity].
    destruct A1 as [(A1 & _ & ->)|(A1 & _ & ->)]; destruct B1 as [(B1 & _ & ->)|(B1 & _ & ->)]; try reflexivity; exfalso; clear -A1 B1; lia.
Qed.
Lemma field_repr_pos look iok nok max d l f d1 : field_repr look iok nok max d l f d1 -> l <> [].
Proof.
  intros A E. destruct A as [i l f _ I L|i l e v lv _ I _ L V|n ln v lv U NN V|fl i l e v lv F _ I _ L V|fl n ln v lv F U NN V]; try discriminate E;
  destruct (int_repr_head _ _ _ _ I) as (x & l' & -> & _); discriminate E.
Qed.
Lemma block_one max d l fs d' : rfc_block max d l fs d' -> forall gs d'', rfc_block max d l gs d'' -> fs = gs /\ d' = d''.
Proof.
  induction 1 as [d|d l f d1 ls fs d2 F B IH]; intros gs d'' H; inversion H as [? A1 A2 A3 A4|? m g e1 ms gs' e2 G C A1 A2 A3 A4]; subst.
  - auto.
  - exfalso. apply field_repr_pos in G. destruct m; [contradiction|discriminate].
  - exfalso. apply field_repr_pos in F. destruct l; [contradiction|discriminate].
  - destruct (field_repr_one _ _ _ _ _ _ _ _ _ _ F G (eq_sym A2)) as (-> & -> & -> & ->).
    destruct (IH _ _ C) as [-> ->]. auto.
Qed.

(** ** What a written field means *)
Lemma tail_min_repr l v : int_tail_min l v -> int_tail_repr l v.
Proof. induction 1; constructor; assumption. Qed.
Lemma int_min_repr p fl l v : int_min p fl l v -> int_repr p fl l v.
Proof. intros H. destruct H as [v L|l w H]; constructor; [exact L|apply tail_min_repr, H]. Qed.
Lemma str_written_repr s b : bytes_ok s -> blen s < 2 ^ 26 -> str_written s b -> str_repr b s.
Proof.
  intros K L W. destruct (encode_string_repr s K L) as (b' & E & R). destruct (encode_string_written s K) as (b'' & E' & W').
  rewrite E in E'. injection E' as <-. rewrite (str_written_one _ _ _ W W'). exact R.
Qed.
Lemma static_rfc d i n v : static_at i n v ->
  (i <> 15 /\ n <> str "accept-" /\ rfc_lookup d i = Some (n, v)) \/ (i = 15 /\ n = str "accept-" /\ rfc_lookup d i = Some (str "accept-charset", [])).
Proof.
  intros H. pose proof (static_at_small _ _ _ H) as R. destruct H as [_ H].
  assert (A : forallb (fun k => match nth_error code_static k with
     | Some (n, v) => if Nat.eqb k 14 then beq n (str "accept-") else negb (beq n (str "accept-")) && match nth_error (map rfc_entry rfc_static) k with Some (n', v') => beq n n' && beq v v' | None => false end
     | None => false end) (seq 0 61) = true) by (vm_compute; reflexivity).
  rewrite forallb_forall in A. specialize (A (N.to_nat (i - 1))). rewrite H in A.
  assert (I : In (N.to_nat (i - 1)) (seq 0 61)) by (apply in_seq; lia). specialize (A I).
  destruct (N.eqb_spec i 15) as [->|N15].
  - right. split; [reflexivity|]. split; [|reflexivity]. apply beq_eq. exact A.
  - left. split; [exact N15|]. destruct (Nat.eqb_spec (N.to_nat (i - 1)) 14) as [Q|_]; [exfalso; lia|].
    apply andb_true_iff in A. destruct A as [A1 A2]. split.
    + intros ->. rewrite (proj2 (beq_eq _ _) eq_refl) in A1. discriminate A1.
    + unfold rfc_lookup. destruct (N.eqb_spec i 0) as [|_]; [lia|].
      destruct (nth_error (map rfc_entry rfc_static) (N.to_nat (i - 1))) as [[n' v']|] eqn:X; [|discriminate A2].
      rewrite nth_error_app1 by (apply nth_error_Some; rewrite X; discriminate). rewrite X.
      apply andb_true_iff in A2. destruct A2 as [A2 A3]. apply beq_eq in A2, A3. subst. reflexivity.
Qed.
Lemma accept_static : static_at 15 (str "accept-") [].
Proof. split; [lia|reflexivity]. Qed.
Lemma lower_lookup d j : nth_error d j = nth_error d j -> rfc_lookup (map lower_field d) (62 + N.of_nat j) = option_map lower_field (nth_error d j).
Proof.
  intros _. unfold rfc_lookup. destruct (N.eqb_spec (62 + N.of_nat j) 0) as [|_]; [lia|].
  rewrite nth_error_app2; rewrite map_length; change (length rfc_static) with 61%nat; [|lia].
  replace (N.to_nat (62 + N.of_nat j - 1) - 61)%nat with j by lia. apply nth_error_map.
Qed.
Lemma field_meant max dyn f l d1 : sendable f -> field_written max dyn f l d1 ->
  exists g dg, field_repr rfc_lookup (fun _ => True) (fun _ => True) max (map lower_field dyn) l g dg /\
    (g = lower_field f <-> field_fine dyn f) /\ (g = lower_field f -> dg = map lower_field d1).
Proof.
  intros (Sn & Sv & Ln & Lv) W.
  assert (Kn : bytes_ok (lower_name (fst f))) by (apply lower_ok, ascii_ok, Sn).
  assert (Bn : blen (lower_name (fst f)) < 2 ^ 26) by (unfold lower_name, blen; rewrite map_length; exact Ln).
  assert (Un : is_utf8 (lower_name (fst f))).
  { apply utf8_valid_iff, utf8_valid_ascii. unfold lower_name. rewrite Forall_forall in Sn |- *. intros b Hb. apply in_map_iff in Hb.
    destruct Hb as (c & <- & Hc). specialize (Sn c Hc). unfold lower_ascii. destruct (_ && _) eqn:Q; lia. }
  assert (Acc : forall i v, static_at i (lower_name (fst f)) v -> field_fine dyn f <-> lower_name (fst f) <> str "accept-").
  { intros i v H. split; [intros [A _]; exact A|]. intros A. split; [exact A|]. intros j e NS. exfalso. exact (NS _ _ H). }
  assert (NAcc : (forall i v, ~ static_at i (lower_name (fst f)) v) -> lower_name (fst f) <> str "accept-").
  { intros NS E. apply (NS 15 []). rewrite E. exact accept_static. }
  change (lower_field f) with (lower_name (fst f), snd f).
  destruct W as [i St|i lv NS St V|i v ln lv NS NS0 St Nm V|j e l NS Nth H First I|ln lv NS NH Nm V].
  - pose proof (static_at_small _ _ _ St) as R. exists (match rfc_lookup (map lower_field dyn) i with Some g => g | None => ([], []) end), (map lower_field dyn).
    destruct (static_rfc (map lower_field dyn) _ _ _ St) as [(N15 & NA & Lk)|(E15 & EA & Lk)]; rewrite Lk.
    + split; [eapply f_indexed; [exact Logic.I| |exact Lk]; constructor; change (2 ^ 7) with 128; lia|]. split; [|reflexivity].
      rewrite (Acc _ _ St). split; auto.
    + split; [eapply f_indexed; [exact Logic.I| |exact Lk]; constructor; change (2 ^ 7) with 128; lia|]. split; [|reflexivity].
      rewrite (Acc _ _ St), EA. split; [|intros Q; exfalso; apply Q; reflexivity]. intros Q. exfalso. discriminate Q.
  - pose proof (static_at_small _ _ _ St) as R.
    assert (Q : exists e, rfc_lookup (map lower_field dyn) i = Some e /\ (fst e = lower_name (fst f) <-> lower_name (fst f) <> str "accept-")).
    { destruct (static_rfc (map lower_field dyn) _ _ _ St) as [(N15 & NA & Lk)|(E15 & EA & Lk)]; rewrite Lk; eexists; (split; [reflexivity|]); cbn [fst].
      - split; auto.
      - rewrite EA. split; [intros Q; discriminate Q|intros Q; exfalso; apply Q; reflexivity]. }
    destruct Q as (e & Lk & Q). exists (fst e, snd f), (rfc_add max (map lower_field dyn) (fst e, snd f)).
    split; [|split].
    + change (64 + i :: lv) with ([64 + i] ++ lv). eapply f_inc_indexed; [exact Logic.I| | |exact Lk|apply str_written_repr; assumption].
      * constructor. change (2 ^ 6) with 64. lia.
      * cbn. lia.
    + rewrite (Acc _ _ St), <- Q. split; [intros X; injection X as X; exact X|intros ->; reflexivity].
    + intros X. rewrite X, add_lower. reflexivity.
  - exists (lower_name (fst f), snd f), (rfc_add max (map lower_field dyn) (lower_name (fst f), snd f)). split; [|split].
    + apply f_inc_new; [exact Un|apply str_written_repr; assumption|apply str_written_repr; assumption].
    + rewrite (Acc _ _ St). split; [|reflexivity]. intros _ E. apply (NS0 15). rewrite E. exact accept_static.
    + intros _. rewrite add_lower. reflexivity.
  - exists (lower_field e), (map lower_field dyn). split; [|split].
    + eapply f_indexed; [exact Logic.I|apply int_min_repr, I|]. rewrite lower_lookup, Nth; reflexivity.
    + destruct H as [HA HV]. unfold lower_field at 1. rewrite HV. split.
      * intros X. injection X as X. split; [apply NAcc, NS|]. intros j' e' _ Nth' H' First'.
        assert (held f e) by (split; assumption).
        pose proof (first_one (held f) dyn j j' e e' Nth H First Nth' H' First') as J. subst j'. rewrite Nth in Nth'. injection Nth' as <-. exact X.
      * intros [_ Fine]. rewrite <- (Fine j e NS Nth (conj HA HV) First). reflexivity.
    + reflexivity.
  - exists (lower_name (fst f), snd f), (rfc_add max (map lower_field dyn) (lower_name (fst f), snd f)). split; [|split].
    + apply f_inc_new; [exact Un|apply str_written_repr; assumption|apply str_written_repr; assumption].
    + split; [|reflexivity]. intros _. split; [apply NAcc, NS|]. intros j e _ Nth H _. exfalso. exact (NH e (nth_error_In _ _ Nth) H).
    + intros _. rewrite add_lower. reflexivity.
Qed.

(** ** What a written block means *)
(** Where a field ends does not depend on the tables. *)
Lemma field_cut max d a f d1 max' d' b g d2 r s :
  field_repr rfc_lookup (fun _ => True) (fun _ => True) max d a f d1 ->
  field_repr rfc_lookup (fun _ => True) (fun _ => True) max' d' b g d2 -> a ++ r = b ++ s -> a = b /\ r = s.
Proof.
  intros A B E. apply field_viewed in A, B.
  destruct A as (p & fl & i & l & q & -> & I & A). destruct B as (p' & fl' & i' & l' & q' & -> & I' & B).
  rewrite <- !app_assoc in E.
  assert (PF : p = p' /\ fl = fl').
  { destruct (int_first p fl l i (q ++ r) I) as (x & t & X & R). destruct (int_first p' fl' l' i' (q' ++ s) I') as (x' & t' & X' & R').
    rewrite X, X' in E. injection E as E _. clear X X'.
    assert (K : (p = 7 /\ fl = 128) \/ (p = 6 /\ fl = 64) \/ (p = 4 /\ fl = 0) \/ (p = 4 /\ fl = 16)) by (clear -A; tauto).
    assert (K' : (p' = 7 /\ fl' = 128) \/ (p' = 6 /\ fl' = 64) \/ (p' = 4 /\ fl' = 0) \/ (p' = 4 /\ fl' = 16)) by (clear -B; tauto).
    clear -E R R' K K'.
    destruct K as [[-> ->]|[[-> ->]|[[-> ->]|[-> ->]]]]; destruct K' as [[-> ->]|[[-> ->]|[[-> ->]|[-> ->]]]]; try (split; reflexivity);
      change (2 ^ 7) with 128 in *; change (2 ^ 6) with 64 in *; change (2 ^ 4) with 16 in *; exfalso; lia. }
  destruct PF as [-> ->]. destruct (int_repr_one _ _ _ _ _ _ _ _ I I' E) as (-> & -> & E').
  destruct A as [(A1 & A2 & -> & A4 & ->)|(A1 & A2)]; destruct B as [(B1 & B2 & -> & B4 & ->)|(B1 & B2)].
  - auto.
  - exfalso. clear -A1 B1. lia.
  - exfalso. clear -A1 B1. lia.
  - destruct A2 as [(e & lv & A3 & A4 & A5 & -> & A6)|(ln & lv & A3 & -> & A4 & A5)];
    destruct B2 as [(e' & lv' & B3 & B4 & B5 & -> & B6)|(ln' & lv' & B3 & -> & B4 & B5)]; try contradiction.
    + destruct (str_repr_one _ _ _ _ _ _ A6 B6 E') as (-> & _ & ->). auto.
    + rewrite <- !app_assoc in E'. destruct (str_repr_one _ _ _ _ _ _ A4 B4 E') as (-> & _ & E2).
      destruct (str_repr_one _ _ _ _ _ _ A5 B5 E2) as (-> & _ & ->). auto.
Qed.
Lemma block_count max dyn fs b d1 : fields_written max dyn fs b d1 -> Forall sendable fs ->
  forall max' peer gs peer', rfc_block max' peer b gs peer' -> length gs = length fs.
Proof.
  induction 1 as [dyn|dyn f fs l d1 ls d2 W B IH]; intros S max' peer gs peer' R.
  - inversion R as [? A1 A2 A3 A4|? m g e1 ms gs' e2 G C A1 A2 A3 A4]; subst; [reflexivity|].
    exfalso. apply field_repr_pos in G. destruct m; [contradiction|discriminate].
  - destruct (field_meant max dyn f l d1 (Forall_inv S) W) as (g0 & dg & F & _).
    inversion R as [? A1 A2 A3 A4|? m g e1 ms gs' e2 G C A1 A2 A3 A4]; subst.
    + exfalso. apply field_repr_pos in F. destruct l; [contradiction|discriminate].
    + destruct (field_cut _ _ _ _ _ _ _ _ _ _ _ _ G F A2) as [_ ->]. cbn [length]. f_equal. exact (IH (Forall_inv_tail S) _ _ _ _ C).
Qed.
Lemma block_meant max dyn fs b d1 : fields_written max dyn fs b d1 -> Forall sendable fs -> forall peer',
  (rfc_block max (map lower_field dyn) b (map lower_field fs) peer' <-> fields_sent_fine max dyn fs /\ peer' = map lower_field d1).
Proof.
  induction 1 as [dyn|dyn f fs l d1 ls d2 W B IH]; intros S peer'.
  - split.
    + intros R. inversion R; subst. split; [constructor|reflexivity].
    + intros [_ ->]. constructor.
  - destruct (field_meant max dyn f l d1 (Forall_inv S) W) as (g & dg & F & Iff & Tab). split.
    + intros R. cbn [map] in R. inversion R as [|? m h e1 ms gs' e2 G C A1 A2 A3 A4]; subst.
      destruct (field_repr_one _ _ _ _ _ _ _ _ _ _ G F A2) as (-> & E1 & E2 & ->).
      specialize (Tab (eq_sym E1)). rewrite E2, Tab in C. apply (IH (Forall_inv_tail S)) in C. destruct C as [C ->].
      split; [|reflexivity]. econstructor; [|exact W|exact C]. apply Iff. symmetry. exact E1.
    + intros [Fine ->]. inversion Fine as [|? ? ? l' d1' Ff W' Fr]; subst. destruct (field_one _ _ _ _ _ _ _ W W') as [<- <-].
      apply Iff in Ff. specialize (Tab Ff). subst g dg. cbn [map]. econstructor; [exact F|]. apply (IH (Forall_inv_tail S)). auto.
Qed.
Lemma pieces_block room max dyn fs cur cs d' : pieces room max dyn fs cur cs d' ->
  cs <> [] /\ exists b, fields_written max dyn fs b d' /\ concat cs = cur ++ b.
Proof.
  induction 1 as [dyn cur|dyn f fs cur l d1 cs d2 R W P [NE (b & IH & E)]|dyn f fs cur l d1 cs d2 R W P [NE (b & IH & E)]].
  - split; [discriminate|]. exists []. split; [constructor|]. reflexivity.
  - split; [exact NE|]. exists (l ++ b). split; [econstructor; eassumption|]. rewrite E, app_assoc. reflexivity.
  - split; [discriminate|]. exists (l ++ b). split; [econstructor; eassumption|]. cbn [concat]. rewrite E. reflexivity.
Qed.

(** ** Frames *)
Lemma octets3_inj v w : v < 16777216 -> w < 16777216 -> octets3 v = octets3 w -> v = w.
Proof.
  unfold octets3. intros A B E. injection E as E1 E2 E3.
  rewrite (N.div_mod v 256), (N.div_mod w 256) by lia. rewrite E3. f_equal. f_equal.
  rewrite (N.div_mod (v / 256) 256), (N.div_mod (w / 256) 256) by lia. rewrite E2. f_equal. f_equal.
  rewrite !N.div_div by lia. exact E1.
Qed.
Lemma header_inj n ty fl id m ty' fl' id' a b : n < 16777216 -> m < 16777216 -> id < 4294967296 -> id' < 4294967296 ->
  header_octets n ty fl id ++ a = header_octets m ty' fl' id' ++ b -> n = m /\ ty = ty' /\ fl = fl' /\ id = id' /\ a = b.
Proof.
  intros N1 N2 I1 I2 E. destruct (app_inj_length (header_octets n ty fl id) (header_octets m ty' fl' id') a b) as [H ->]; [reflexivity|exact E|].
  unfold header_octets in H. destruct (app_inj_length (octets3 n) (octets3 m) ([ty; fl] ++ octets4 id) ([ty'; fl'] ++ octets4 id')) as [H1 H2]; [reflexivity|exact H|].
  apply octets3_inj in H1; [|assumption..]. destruct (app_inj_length [ty; fl] [ty'; fl'] (octets4 id) (octets4 id')) as [H4 H3]; [reflexivity|exact H2|].
  injection H4 as -> ->. apply octets4_inj in H3; [|assumption..]. auto.
Qed.
Definition sent_typed (s : sent) : Prop := let '(ty, fl, id, p) := s in id < 4294967296 /\ blen p < 16777216.
Lemma sent_one s s' a b : sent_typed s -> sent_typed s' -> sent_octets s ++ a = sent_octets s' ++ b -> s = s' /\ a = b.
Proof.
  destruct s as [[[ty fl] id] p], s' as [[[ty' fl'] id'] p']. unfold sent_typed, sent_octets. intros [I L] [I' L'] E. rewrite <- !app_assoc in E.
  destruct (header_inj _ _ _ _ _ _ _ _ _ _ L L' I I' E) as (E1 & -> & -> & -> & E2).
  destruct (app_inj_length p p' a b) as [-> ->]; [unfold blen in E1; lia|exact E2|]. auto.
Qed.
Lemma sent_all fs : Forall sent_typed fs -> forall gs, Forall sent_typed gs -> concat (map sent_octets fs) = concat (map sent_octets gs) -> fs = gs.
Proof.
  induction 1 as [|s fs Hs Hf IH]; intros gs Hg E; destruct gs as [|s' gs]; cbn [map concat] in E.
  - reflexivity.
  - exfalso. destruct s' as [[[? ?] ?] ?]. discriminate E.
  - exfalso. destruct s as [[[? ?] ?] ?]. discriminate E.
  - destruct (sent_one _ _ _ _ Hs (Forall_inv Hg) E) as [-> E']. f_equal. apply IH; [exact (Forall_inv_tail Hg)|exact E'].
Qed.
Lemma framed_sent ty fl id p : blen p < 16777216 -> framed ty fl id p = sent_octets (ty, fl, id, p).
Proof. intros L. unfold framed. rewrite N.mod_small by exact L. reflexivity. Qed.
Lemma fine_typed room s : room < 16777216 -> sent_fine room s -> sent_typed s.
Proof. destruct s as [[[ty fl] id] p]. cbn. lia. Qed.
(** A frame that is written whole. *)
Lemma framed_one ty fl id p ty' fl' id' p' : id < 4294967296 -> sent_typed (ty', fl', id', p') ->
  framed ty fl id p = concat (map sent_octets [(ty', fl', id', p')]) -> (ty, fl, id, p) = (ty', fl', id', p').
Proof.
  intros I T E. cbn [map concat] in E. rewrite app_nil_r in E.
  assert (L : blen p = blen p').
  { apply (f_equal blen) in E. unfold framed, sent_octets in E. rewrite !blen_app in E. change (blen (header_octets _ _ _ _)) with 9 in E.
    change (blen (header_octets (blen p') ty' fl' id')) with 9 in E. lia. }
  destruct T as [I' L']. rewrite framed_sent in E by lia.
  destruct (sent_one (ty, fl, id, p) (ty', fl', id', p') [] []) as [Q _]; [cbn; lia|cbn; lia|rewrite !app_nil_r; exact E|exact Q].
Qed.
Lemma entries_range s : Forall (fun e => u32 (snd e)) (entries_of s) -> Forall entry_range (entries_of s).
Proof.
  intros F. rewrite Forall_forall in F |- *. intros e He. split; [|exact (F e He)]. clear F. unfold entries_of, present in He.
  repeat match goal with H : In _ (_ ++ _) |- _ => apply in_app_or in H as [H|H] | H : In _ (match ?o with Some _ => _ | None => _ end) |- _ => destruct o end.
  all: repeat match goal with H : In _ _ |- _ => destruct H as [<-|H] | H : In _ [] |- _ => destruct H end; try (cbn [fst]; lia); contradiction.
Qed.
(** Frames that are one frame. *)
Lemma conforms_one room max peer f ty fl id p peer' : room < 16777216 -> id < 4294967296 -> (forall d, f <> FData d) -> (forall h, f <> FHeaders h) -> (forall h, f <> FPushPromise h) ->
  (conforms room max peer f (framed ty fl id p) peer' <-> (id < 2147483648 /\ blen p <= room /\ rfc_frame ty fl id p f) /\ peer' = peer).
Proof.
  intros R I ND NH NP. split.
  - intros (fs & E & F & S). destruct S as [d xs|h fl1 p1 b0 tails ps peer'|h fl1 p1 b0 tails ps peer'|ty' fl' id' p' f _ S]; [destruct (ND _ eq_refl)|destruct (NH _ eq_refl)|destruct (NP _ eq_refl)|].
    pose proof (Forall_inv F) as F1. pose proof (framed_one ty fl id p ty' fl' id' p' I (fine_typed _ _ R F1) E) as Q.
    injection Q as <- <- <- <-. destruct F1 as [F1 F2]. auto.
  - intros [(I' & L & S) ->]. exists [(ty, fl, id, p)]. split; [|split].
    + cbn [map concat]. rewrite app_nil_r. apply framed_sent. lia.
    + constructor; [split; assumption|constructor].
    + constructor; assumption.
Qed.
Lemma set_2 fl n : n <> 2 -> (flag_on (end_headers fl) n <-> flag_on fl n).
Proof. intros H. unfold flag_on, end_headers. rewrite N.setbit_neq by congruence. reflexivity. Qed.
Lemma set_2_on fl : flag_on (end_headers fl) 2.
Proof. unfold flag_on, end_headers. apply N.setbit_eq. Qed.
Lemma clear_0 fl : ~ flag_on (no_end_stream fl) 0 /\ (flag_on (no_end_stream fl) 3 <-> flag_on fl 3).
Proof.
  unfold flag_on, no_end_stream. rewrite N.clearbit_eq, N.clearbit_neq by discriminate. split; [discriminate|reflexivity].
Qed.
Lemma only_last_snoc n on fls l : only_last n on (fls ++ [l]) <-> Forall (fun f => ~ flag_on f n) fls /\ (flag_on l n <-> on).
Proof.
  split.
  - intros (i & x & E & F & X). apply app_inj_tail in E. destruct E as [-> ->]. auto.
  - intros [F X]. exists fls, l. auto.
Qed.

(** *** DATA *)
Lemma padded_length fl p l : rfc_padded fl p l -> blen l <= blen p /\ (flag_on fl 3 -> blen l < blen p).
Proof.
  intros H. destruct H as [p H|n d H L].
  - split; [lia|]. intros F. contradiction.
  - rewrite blen_cons, blen_app. split; lia.
Qed.
Lemma data_exact room max dyn d b dyn' peer' : room < 16777216 -> u32 (da_id d) -> frame_written room max dyn (FData d) b dyn' ->
  (conforms room max (map lower_field dyn) (FData d) b peer' <-> frame_fine room max dyn (FData d) /\ peer' = map lower_field dyn').
Proof.
  intros R U W. inversion W as [d0 cs c D1 D2 D3 D4 D5| | | | | | | |]; subst. clear W. unfold u32 in U.
  set (gs := map (fun c => (0, no_end_stream (da_flags d), da_id d, c)) cs ++ [(0, da_flags d, da_id d, c)]).
  assert (TG : Forall sent_typed gs).
  { apply Forall_app. split; [|constructor; [split; lia|constructor]]. rewrite Forall_forall in D3 |- *. intros s Hs. apply in_map_iff in Hs.
    destruct Hs as (x & <- & Hx). specialize (D3 x Hx). split; lia. }
  assert (EG : concat (map (framed 0 (no_end_stream (da_flags d)) (da_id d)) cs) ++ framed 0 (da_flags d) (da_id d) c = concat (map sent_octets gs)).
  { unfold gs. rewrite map_app, concat_app. f_equal.
    - rewrite map_map. f_equal. apply map_ext_in. intros x Hx. rewrite Forall_forall in D3. specialize (D3 x Hx). apply framed_sent. lia.
    - cbn [map concat]. rewrite app_nil_r. apply framed_sent. lia. }
  rewrite EG. split.
  - intros (fs & E & F & S). inversion S as [d0 xs H1 H2 H3| | |? ? ? ? ? NF]; subst; [|destruct (NF _ eq_refl)].
    split; [|reflexivity].
    assert (TF : Forall sent_typed (map (fun x : N * bytes * bytes => (0, fst (fst x), da_id d, snd (fst x))) xs)).
    { eapply Forall_impl; [|exact F]. intros s. apply fine_typed, R. }
    symmetry in E. apply (sent_all _ TF _ TG) in E.
    assert (X : exists xs0 x, xs = xs0 ++ [x] /\ fst (fst x) = da_flags d /\ snd (fst x) = c).
    { destruct (map_eq_app _ _ _ _ E) as (xs0 & xs1 & -> & _ & E1). destruct xs1 as [|x [|y xs1]]; [discriminate E1| |discriminate E1].
      exists xs0, x. cbn [map] in E1. injection E1 as E1 E2. auto. }
    destruct X as (xs0 & x & -> & Fx & Px).
    assert (Pay : concat (map (fun x => snd (fst x)) (xs0 ++ [x])) = da_data d).
    { rewrite D1. apply (f_equal (fun l => concat (map snd l))) in E. rewrite map_map in E. cbn [snd] in E. etransitivity; [exact E|]. unfold gs.
      rewrite map_app, concat_app, map_map. cbn [map snd concat]. rewrite map_id, app_nil_r. reflexivity. }
    assert (H1x := H1). apply Forall_app in H1. destruct H1 as [H1 H4]. apply Forall_inv in H4. destruct x as [[fl p] l]. cbn [fst snd] in *. subst fl p.
    inversion H4 as [? ? ? ? NZ PD| | | | | | |]; subst. 
    apply Forall_app in F || (rewrite map_app in F; apply Forall_app in F). destruct F as [_ F]. apply Forall_inv in F. destruct F as [F _].
    constructor; [lia|]. intros On.
    assert (LT : blen (concat (map snd xs0)) <= blen (concat (map (fun x => snd (fst x)) xs0))).
    { clear -H1. induction H1 as [|[[fl p] l] xs H _ IH]; [cbn; lia|]. cbn [map concat snd fst]. rewrite !blen_app.
      inversion H as [? ? ? ? _ P| | | | | | |]; subst. apply padded_length in P. lia. }
    apply padded_length in PD. destruct PD as [_ PD]. specialize (PD On).
    rewrite map_app, concat_app in H2, Pay. cbn [map concat snd fst] in H2, Pay. rewrite <- H2 in Pay. apply (f_equal blen) in Pay. rewrite !blen_app in Pay. lia.
  - intros [Fine ->]. inversion Fine as [d0 I NP| | | | | | |]; subst. exists gs. split; [reflexivity|]. split.
    + apply Forall_app. split; [|constructor; [split; lia|constructor]]. rewrite Forall_forall in D3 |- *. intros s Hs. apply in_map_iff in Hs.
      destruct Hs as (x & <- & Hx). specialize (D3 x Hx). split; lia.
    + replace gs with (map (fun x : N * bytes * bytes => (0, fst (fst x), da_id d, snd (fst x))) (map (fun c => (no_end_stream (da_flags d), c, c)) cs ++ [(da_flags d, c, c)])).
      2:{ unfold gs. rewrite map_app, map_map. reflexivity. }
      constructor.
      * apply Forall_app. split; [|constructor; [|constructor]].
        -- rewrite Forall_forall. intros s Hs. apply in_map_iff in Hs. destruct Hs as (x & <- & Hx). constructor; [lia|]. constructor.
           rewrite (proj2 (clear_0 (da_flags d))). exact NP.
        -- constructor; [lia|]. constructor. exact NP.
      * rewrite map_app, map_map. cbn [map snd]. rewrite map_id, concat_app. cbn [concat]. rewrite app_nil_r. symmetry. exact D1.
      * rewrite map_app, map_map. cbn [map fst]. apply only_last_snoc. split; [|reflexivity].
        rewrite Forall_forall. intros f Hf. apply in_map_iff in Hf. destruct Hf as (x & <- & _). apply clear_0.
Qed.

(** *** Header blocks *)
Lemma tails_snoc fl id r z : tails_framed fl id (r ++ [z]) = concat (map (framed 9 0 id) r) ++ framed 9 fl id z.
Proof.
  induction r as [|c r IH]; [reflexivity|]. cbn [app tails_framed map concat]. destruct (r ++ [z]) as [|y q] eqn:E; [destruct r; discriminate E|].
  rewrite <- app_assoc, <- IH. reflexivity.
Qed.
Lemma block_snoc fl id c r z : block_framed fl id (c :: r ++ [z]) = framed 1 0 id c ++ concat (map (framed 9 0 id) r) ++ framed 9 fl id z.
Proof.
  unfold block_framed. destruct (r ++ [z]) as [|y q] eqn:E; [destruct r; discriminate E|]. rewrite <- E, tails_snoc. reflexivity.
Qed.
Definition block_sents (fl id : N) (cs : list bytes) : list sent :=
  match cs with
  | [] => []
  | [c] => [(1, fl, id, c)]
  | c :: r => (1, 0, id, c) :: map (fun t => (9, 0, id, t)) (removelast r) ++ [(9, fl, id, last r [])]
  end.
Lemma framed_blen ty fl id p : blen p <= blen (framed ty fl id p).
Proof. unfold framed. rewrite blen_app. lia. Qed.
Lemma tails_blen fl id r : Forall (fun c => blen c <= blen (concat (map (framed 9 fl id) r))) r.
Proof.
  induction r as [|c r IH]; [constructor|]. cbn [map concat]. constructor.
  - rewrite blen_app. pose proof (framed_blen 9 fl id c). lia.
  - eapply Forall_impl; [|exact IH]. intros x H. cbv beta in H. rewrite blen_app. lia.
Qed.
Lemma block_sent fl id cs : blen (block_framed fl id cs) < 16777216 ->
  block_framed fl id cs = concat (map sent_octets (block_sents fl id cs)) /\ Forall (fun c => blen c < 16777216) cs.
Proof.
  destruct cs as [|c r]; intros L; [split; [reflexivity|constructor]|].
  destruct r as [|y q].
  - cbn [block_framed] in *. pose proof (framed_blen 1 fl id c). split; [|constructor; [lia|constructor]].
    cbn [block_sents map concat]. rewrite app_nil_r. apply framed_sent. lia.
  - destruct (exists_last (l := y :: q)) as (r0 & z & E); [discriminate|]. rewrite E in *. clear y q E.
    rewrite block_snoc in *. rewrite !blen_app in L.
    pose proof (framed_blen 1 0 id c). pose proof (framed_blen 9 fl id z). pose proof (tails_blen 0 id r0) as T.
    assert (T0 : Forall (fun c => blen c < 16777216) r0) by (eapply Forall_impl; [|exact T]; intros x Hx; cbv beta in Hx; lia).
    split.
    + assert (B : block_sents fl id (c :: r0 ++ [z]) = (1, 0, id, c) :: map (fun t => (9, 0, id, t)) r0 ++ [(9, fl, id, z)]).
      { unfold block_sents. destruct (r0 ++ [z]) as [|y q] eqn:E; [destruct r0; discriminate E|]. rewrite <- E, removelast_last, last_last. reflexivity. }
      rewrite B. cbn [map concat]. rewrite map_app, concat_app. rewrite (framed_sent 1) by lia. f_equal. f_equal.
      * rewrite map_map. f_equal. apply map_ext_in. intros x Hx. rewrite Forall_forall in T0. apply framed_sent, T0, Hx.
      * cbn [map concat]. rewrite app_nil_r. apply framed_sent. lia.
    + constructor; [lia|]. apply Forall_app. split; [exact T0|]. constructor; [lia|constructor].
Qed.
Lemma sents_snoc fl id c r z : block_sents fl id (c :: r ++ [z]) = (1, 0, id, c) :: map (fun t => (9, 0, id, t)) r ++ [(9, fl, id, z)].
Proof. unfold block_sents. destruct (r ++ [z]) as [|y q] eqn:E; [destruct r; discriminate E|]. rewrite <- E, removelast_last, last_last. reflexivity. Qed.
Lemma sents_typed fl id cs : id < 4294967296 -> Forall (fun c => blen c < 16777216) cs -> Forall sent_typed (block_sents fl id cs).
Proof.
  intros I F. destruct cs as [|c r]; [constructor|]. destruct r as [|y q].
  - constructor; [|constructor]. split; [exact I|exact (Forall_inv F)].
  - destruct (exists_last (l := y :: q)) as (r0 & z & E); [discriminate|]. rewrite E in *. clear y q E. rewrite sents_snoc.
    pose proof (Forall_inv F) as F1. apply Forall_inv_tail, Forall_app in F. destruct F as [F2 F3]. apply Forall_inv in F3.
    constructor; [split; assumption|]. apply Forall_app. split; [|constructor; [split; assumption|constructor]].
    rewrite Forall_forall in F2 |- *. intros s Hs. apply in_map_iff in Hs. destruct Hs as (x & <- & Hx). split; [exact I|apply F2, Hx].
Qed.
Lemma sents_fine room fl id cs : cs <> [] -> (Forall (sent_fine room) (block_sents fl id cs) <-> id < 2147483648 /\ Forall (fun c => blen c <= room) cs).
Proof.
  intros NE. destruct cs as [|c r]; [contradiction|]. destruct r as [|y q].
  - cbn [block_sents]. rewrite !Forall_cons_iff. unfold sent_fine. split; [intros ((A & B) & _); auto|intros (A & B & _); auto].
  - destruct (exists_last (l := y :: q)) as (r0 & z & E); [discriminate|]. rewrite E. clear NE y q E. rewrite sents_snoc.
    rewrite !Forall_cons_iff, !Forall_app, !Forall_cons_iff. unfold sent_fine.
    assert (M : id < 2147483648 -> (Forall (fun s : sent => let '(_, _, i, p) := s in i < 2147483648 /\ blen p <= room) (map (fun t => (9, 0, id, t)) r0) <-> Forall (fun c => blen c <= room) r0)).
    { intros I. rewrite Forall_map. split; intros H; (eapply Forall_impl; [|exact H]); intros x Hx; cbv beta iota in *; tauto. }
    split.
    + intros ((A & B) & C & (A' & D) & _). apply (M A) in C. auto.
    + intros (A & B & C & D & _). apply (M A) in C. auto 7.
Qed.
Lemma flag_zero_off n : ~ flag_on 0 n.
Proof. unfold flag_on. rewrite N.bits_0. discriminate. Qed.
Lemma plain_headers fl p dep b0 : ~ flag_on fl 3 -> ~ flag_on fl 5 -> (rfc_headers fl p dep b0 <-> dep = None /\ b0 = p).
Proof.
  intros N3 N5. split.
  - intros H. destruct H as [p b H P|p d b H D P]; [|contradiction]. inversion P; subst; [auto|contradiction].
  - intros [-> ->]. constructor; [exact N5|]. constructor. exact N3.
Qed.
Lemma headers_exact room max dyn h b dyn' peer' : room < 16777216 -> frame_typed (FHeaders h) -> frame_plain (FHeaders h) b ->
  frame_written room max dyn (FHeaders h) b dyn' ->
  (conforms room max (map lower_field dyn) (FHeaders h) b peer' <-> frame_fine room max dyn (FHeaders h) /\ peer' = map lower_field dyn').
Proof.
  intros R [U FO] (SD & N3 & N5 & LB) W. inversion W as [|h0 cs d0 PC| | | | | | |]; subst. clear W. unfold u32 in U.
  destruct (block_sent _ _ _ LB) as [EB LC]. destruct (pieces_block _ _ _ _ _ _ _ PC) as (NE & blk & FW & CB). cbn [app] in CB.
  set (gs := block_sents (end_headers (hf_flags h)) (hf_id h) cs) in *.
  pose proof (sents_typed (end_headers (hf_flags h)) (hf_id h) cs U LC) as TG. fold gs in TG.
  rewrite EB.
  (** What frames of this kind say, once they are known. *)
  assert (KEY : forall peer', rfc_sent max (map lower_field dyn) (FHeaders h) gs peer' <->
    hf_id h <> 0 /\ hf_dep h = None /\ parts_fields (hf_parts h) = [] /\ fields_sent_fine max dyn (hf_fields h) /\ (flag_on (hf_flags h) 0 -> length cs = 1%nat) /\ peer' = map lower_field dyn').
  { intros q. 
    assert (BLK : (exists ps, Permutation ps (parts_fields (hf_parts h)) /\ rfc_block max (map lower_field dyn) (concat cs) (ps ++ map lower_field (hf_fields h)) q) <->
       parts_fields (hf_parts h) = [] /\ fields_sent_fine max dyn (hf_fields h) /\ q = map lower_field dyn').
    { rewrite CB. split.
      - intros (ps & PP & B). pose proof (block_count _ _ _ _ _ FW SD _ _ _ _ B) as C. rewrite app_length, map_length in C.
        destruct ps as [|x ps]; [|cbn [length] in C; lia]. apply Permutation_nil in PP. split; [exact PP|]. apply (block_meant _ _ _ _ _ FW SD), B.
      - intros [E X]. exists []. rewrite E. split; [constructor|]. apply (block_meant _ _ _ _ _ FW SD), X. }
    assert (KIND : rfc_sent max (map lower_field dyn) (FHeaders h) gs q <-> exists fl p b0 tails ps, gs = (1, fl, hf_id h, p) :: map (fun t => (9, fst t, hf_id h, snd t)) tails /\
       hf_id h <> 0 /\ rfc_headers fl p (hf_dep h) b0 /\ (flag_on fl 0 <-> flag_on (hf_flags h) 0) /\ only_last 2 True (fl :: map fst tails) /\
       Permutation ps (parts_fields (hf_parts h)) /\ rfc_block max (map lower_field dyn) (b0 ++ concat (map snd tails)) (ps ++ map lower_field (hf_fields h)) q).
    { split.
      - intros S. remember gs as gs' eqn:EG. inversion S as [|h0 fl p b0 tails ps q' A1 A2 A3 A4 A5 A6| |? ? ? ? ? _ RF]; subst; [|inversion RF].
        exists fl, p, b0, tails, ps. auto 10.
      - intros (fl & p & b0 & tails & ps & EG & A1 & A2 & A3 & A4 & A5 & A6). rewrite EG. econstructor; eassumption. }
    rewrite KIND. clear KIND. unfold gs. destruct cs as [|c r]; [contradiction|]. destruct r as [|y t].
    - cbn [block_sents concat] in *. rewrite app_nil_r in BLK, CB. split.
      + intros (fl & p & b0 & tails & ps & E & A1 & A2 & A3 & A4 & A5 & A6). injection E as <- <- E. destruct tails; [|discriminate E].
        cbn [map concat] in A6. rewrite app_nil_r in A6. apply plain_headers in A2; [|rewrite set_2 by discriminate; assumption..]. destruct A2 as [A2 ->].
        destruct BLK as [BLK _]. destruct BLK as (B1 & B2 & B3); [exists ps; auto|]. auto 10.
      + intros (A1 & A2 & A3 & A4 & _ & A6). destruct BLK as [_ BLK]. destruct BLK as (ps & P1 & P2); [auto|].
        exists (end_headers (hf_flags h)), c, c, [], ps. cbn [map concat]. rewrite app_nil_r.
        split; [reflexivity|]. split; [exact A1|]. split; [apply plain_headers; [rewrite set_2 by discriminate; assumption..|]; auto|].
        split; [apply set_2; discriminate|]. split; [|auto]. exists [], (end_headers (hf_flags h)). split; [reflexivity|]. split; [constructor|]. split; [auto|intros _; apply set_2_on].
    - destruct (exists_last (l := y :: t)) as (r0 & z & E); [discriminate|]. rewrite E in *. rewrite sents_snoc.
      assert (LEN : length (c :: r0 ++ [z]) <> 1%nat) by (cbn [length]; rewrite app_length; cbn [length]; lia).
      split.
      + intros (fl & p & b0 & tails & ps & E' & A1 & A2 & A3 & A4 & A5 & A6). injection E' as <- <- E'.
        apply plain_headers in A2; [|apply flag_zero_off..]. destruct A2 as [A2 ->].
        assert (TS : concat (map snd tails) = concat (r0 ++ [z])).
        { apply (f_equal (map (fun s : sent => snd s))) in E'. rewrite !map_app, !map_map in E'. cbn [snd map] in E'. rewrite map_id in E'. rewrite E'. reflexivity. }
        rewrite TS in A6. destruct BLK as [BLK _]. destruct BLK as (B1 & B2 & B3); [exists ps; auto|].
        split; [exact A1|]. split; [exact A2|]. split; [exact B1|]. split; [exact B2|]. split; [|exact B3].
        intros On. apply A3 in On. exfalso. exact (flag_zero_off _ On).
      + intros (A1 & A2 & A3 & A4 & A5 & A6). destruct BLK as [_ BLK]. destruct BLK as (ps & P1 & P2); [auto|].
        exists 0, c, c, (map (fun t => (0, t)) r0 ++ [(end_headers (hf_flags h), z)]), ps.
        rewrite !map_app, !map_map. cbn [map fst snd]. rewrite map_id.
        split; [reflexivity|]. split; [exact A1|]. split; [apply plain_headers; [apply flag_zero_off..|]; auto|].
        split; [split; [intros On; destruct (flag_zero_off _ On)|intros On; destruct (LEN (A5 On))]|]. split; [|auto].
        exists (0 :: map (fun _ => 0) r0), (end_headers (hf_flags h)). split; [reflexivity|]. split; [|split; [auto|intros _; apply set_2_on]].
        constructor; [apply flag_zero_off|]. rewrite Forall_forall. intros f Hf. apply in_map_iff in Hf. destruct Hf as (? & <- & _). apply flag_zero_off. }
  split.
  - intros (fs & E & F & S).
    assert (TF : Forall sent_typed fs) by (eapply Forall_impl; [|exact F]; intros s; apply fine_typed, R).
    apply (sent_all _ TG _ TF) in E. subst fs. apply KEY in S. destruct S as (S1 & S2 & S3 & S4 & S5 & S6).
    apply sents_fine in F; [|exact NE]. destruct F as [F1 F2]. split; [|exact S6]. econstructor; try eassumption. lia.
  - intros [Fine ->]. inversion Fine as [|h0 cs' d' F1 F2 F3 F4 F5 F6 F7| | | | | |]; subst. destruct (pieces_one _ _ _ _ _ _ _ PC _ _ F5) as [-> ->].
    exists gs. split; [reflexivity|]. split; [apply sents_fine; [exact NE|]; split; [lia|exact F6]|]. apply KEY.
    split; [lia|]. auto 10.
Qed.

(** *** The others *)
Lemma push_never room max dyn h b dyn' peer' : room < 16777216 -> frame_typed (FPushPromise h) -> blen b < 16777216 ->
  frame_written room max dyn (FPushPromise h) b dyn' -> ~ conforms room max (map lower_field dyn) (FPushPromise h) b peer'.
Proof.
  intros R (U1 & U2 & _) L W. inversion W as [| | |h0 fs0 hh blk d1 cs d0 PT FW PC| | | | |]; subst. clear W. unfold u32 in *. rewrite blen_app in L.
  destruct (block_sent (end_headers (pp_flags h)) (pp_promised h) cs) as [EB LC]; [lia|].
  destruct (pieces_block _ _ _ _ _ _ _ PC) as (NE & _). pose proof (framed_blen 5 (end_headers (pp_flags h)) (pp_id h) (octets4 (pp_promised h) ++ blk)) as L5.
  intros (fs & E & F & S). rewrite framed_sent, EB in E by lia.
  assert (TF : Forall sent_typed fs) by (eapply Forall_impl; [|exact F]; intros s; apply fine_typed, R).
  assert (TG : Forall sent_typed ((5, end_headers (pp_flags h), pp_id h, octets4 (pp_promised h) ++ blk) :: block_sents (end_headers (pp_flags h)) (pp_promised h) cs)).
  { constructor; [split; [exact U1|lia]|]. apply sents_typed; assumption. }
  change (sent_octets ?s ++ concat (map sent_octets ?l)) with (concat (map sent_octets (s :: l))) in E.
  apply (sent_all _ TG _ TF) in E. subst fs. clear L5 TF F TG. remember ((5, end_headers (pp_flags h), pp_id h, octets4 (pp_promised h) ++ blk) :: block_sents (end_headers (pp_flags h)) (pp_promised h) cs) as gs eqn:EG.
  inversion S as [| |h0 fl p b0 tails ps q A1 A2 A3 A4 A5 A6|? ? ? ? ? _ RF]; [|inversion RF].
  rewrite EG in *. assert (E : map (fun t => (9, fst t, pp_id h, snd t)) tails = block_sents (end_headers (pp_flags h)) (pp_promised h) cs) by congruence.
  destruct cs as [|c [|y t]]; [contradiction| |]; destruct tails; discriminate E.
Qed.
Lemma priority_never p fs : pr_id p < 4294967296 -> Forall sent_typed fs ->
  header_octets 0 2 0 (pr_id p) ++ octets4 (dp_id (pr_dep p)) ++ [dp_weight (pr_dep p)] <> concat (map sent_octets fs).
Proof.
  intros I F E. destruct fs as [|[[[ty fl] id] q] fs]; [discriminate E|]. cbn [map concat] in E. unfold sent_octets at 1 in E. rewrite <- app_assoc in E.
  destruct (Forall_inv F) as [I' L']. destruct (header_inj _ _ _ _ _ _ _ _ _ _ (N.lt_trans 0 1 16777216 N.lt_0_1 eq_refl) L' I I' E) as (Lq & _ & _ & _ & E2).
  destruct q; [|rewrite blen_cons in Lq; lia]. apply (f_equal blen) in E2. cbn [app] in E2. rewrite blen_app, octets4_blen in E2. change (blen [_]) with 1 in E2.
  destruct fs as [|[[[ty' fl'] id'] q'] fs]; [cbn in E2; lia|]. cbn [map concat] in E2. unfold sent_octets at 1 in E2. rewrite !blen_app in E2.
  change (blen (header_octets (blen q') ty' fl' id')) with 9 in E2. lia.
Qed.
Lemma conforms_exact room max dyn f b dyn' peer' : room < 16777216 -> frame_typed f -> frame_plain f b -> frame_written room max dyn f b dyn' ->
  (conforms room max (map lower_field dyn) f b peer' <-> frame_fine room max dyn f /\ peer' = map lower_field dyn').
Proof.
  intros R T P W. destruct f as [d|h|p|h|s|p|g|w|r].
  - apply data_exact; assumption.
  - apply headers_exact; assumption.
  - inversion W; subst. split; [|intros [Fine _]; inversion Fine]. intros (fs & E & F & _). exfalso.
    revert E. apply priority_never; [apply T|]. eapply Forall_impl; [|exact F]. intros s. apply fine_typed, R.
  - split; [|intros [Fine _]; inversion Fine]. intros C. exfalso. revert C. eapply push_never; eassumption.
  - inversion W; subst. rewrite conforms_one; try discriminate; [|exact R|lia]. cbn [frame_typed] in T. pose proof (entries_range s T) as ER. split.
    + intros [(_ & L & S) ->]. split; [|reflexivity]. remember (concat (map entry_octets (entries_of s))) as q eqn:EQ.
      inversion S as [| | |fl es A1 A2 A3 A4 A5 A6 A7|fl A1 A2 A3 A4 A5| | |]; subst.
      * apply entries_octets_inj in A7; [|assumption..]. constructor; [reflexivity|rewrite <- A7; exact A3|exact L].
      * apply ff_settings_ack.
    + intros [Fine ->]. split; [|reflexivity]. inversion Fine as [| |s0 A1 A2 A3| | | | |]; subst.
      * split; [lia|]. split; [exact A3|]. rewrite A1. rewrite <- (settings_of_entries s A1) at 2. constructor; [apply flag_zero_off|assumption..].
      * split; [lia|]. split; [apply N.le_0_l|]. apply rf_settings_ack. reflexivity.
  - inversion W; subst. rewrite conforms_one; try discriminate; [|exact R|lia]. split.
    + intros [(_ & L & S) ->]. split; [|reflexivity]. assert (Q : blen (pg_payload p) = 8) by (inversion S; subst; assumption). constructor; lia.
    + intros [Fine ->]. split; [|reflexivity]. inversion Fine as [| | | |p0 A1 A2| | |]; subst. split; [lia|]. split; [lia|].
      destruct p as [a l]. cbn [pg_ack pg_payload] in *. destruct a; [exact (rf_ping 1 l A1)|exact (rf_ping 0 l A1)].
  - destruct T as (T1 & T2 & T3). inversion W; subst. rewrite conforms_one; try discriminate; [|exact R|lia]. rewrite !blen_app, !octets4_blen. split.
    + intros [(_ & L & S) ->]. split; [|reflexivity]. remember (octets4 (ga_last g) ++ octets4 (ga_code g) ++ ga_debug g) as q eqn:EQ.
      inversion S as [| | | | | |fl k last code debug A1 A2 A3 A4 A5 A6|]; subst. apply ff_goaway; cbn [ga_last ga_debug] in *; lia.
    + intros [Fine ->]. split; [|reflexivity]. inversion Fine as [| | | | |g0 A1 A2| |]; subst. split; [lia|]. split; [lia|].
      destruct g as [last code debug]. cbn [ga_last ga_code ga_debug] in *. exact (rf_goaway 0 0 last code debug (N.le_0_l 1) A1 T2).
  - destruct T as (T1 & T2). inversion W; subst. rewrite conforms_one; try discriminate; [|exact R|exact T1]. rewrite octets4_blen. split.
    + intros [(I & L & S) ->]. split; [|reflexivity]. remember (octets4 (wu_inc w)) as q eqn:EQ.
      inversion S as [| | | | | | |fl id k inc A1 A2 A3 A4]; subst. apply ff_window; cbn [wu_id wu_inc] in *; lia.
    + intros [Fine ->]. split; [|reflexivity]. inversion Fine as [| | | | | |w0 A1 A2 A3|]; subst. split; [lia|]. split; [lia|].
      destruct w as [id inc]. cbn [wu_id wu_inc] in *. exact (rf_window 0 id 0 inc (N.le_0_l 1) A2).
  - destruct T as (T1 & T2). inversion W; subst. rewrite conforms_one; try discriminate; [|exact R|exact T1]. rewrite octets4_blen. split.
    + intros [(I & L & S) ->]. split; [|reflexivity]. inversion S as [| |fl id c A1 A2 A3 A4| | | | |]; subst. apply ff_reset; cbn [rs_id] in *; lia.
    + intros [Fine ->]. split; [|reflexivity]. inversion Fine as [| | | | | | |r0 A1 A2]; subst. split; [lia|]. split; [lia|].
      destruct r as [id c]. cbn [rs_id rs_code] in *. constructor; [lia|exact T2].
Qed.

Lemma written_conforms room max dyn f t b peer' : room < 16777216 -> table_typed max dyn -> frame_typed f ->
  frame_encode room (table_of max dyn) f = Ok (t, b) -> frame_plain f b ->
  (conforms room max (map lower_field dyn) f b peer' <-> frame_fine room max dyn f /\ t = table_of max (hi_to_vec t) /\ peer' = map lower_field (hi_to_vec t)).
Proof.
  intros R TT T E P. apply (frame_all room max dyn f t b TT T) in E. destruct E as (dyn' & -> & W).
  rewrite (conforms_exact room max dyn f b dyn' peer' R T P W). unfold hi_to_vec. cbn [table_of hi_table]. tauto.
Qed.
Lemma tokens_fine max fs : Forall field_octets fs -> forall dyn, table_typed max dyn ->
  (forall f, In f fs -> lower_name (fst f) <> str "accept-") ->
  (forall f g, In f fs -> In g (dyn ++ fs) -> alike (fst g) (fst f) -> lower_name (fst g) = lower_name (fst f)) -> fields_sent_fine max dyn fs.
Proof.
  induction 1 as [|f fs Hf Hfs IH]; intros dyn T A C; [constructor|].
  destruct (field_runs max dyn f T Hf) as (l & d1 & _ & W). econstructor; [|exact W|].
  - split; [apply A; left; reflexivity|]. intros j e _ N [H _] _. apply C; [left; reflexivity|apply in_or_app; left; exact (nth_error_In _ _ N)|exact H].
  - apply IH; [exact (field_typed _ _ _ _ _ T Hf W)|intros g Hg; apply A; right; exact Hg|].
    intros g h Hg Hh. apply C; [right; exact Hg|]. apply in_app_or in Hh. apply in_or_app. destruct Hh as [Hh|Hh]; [|right; right; exact Hh].
    assert (X : d1 = dyn \/ d1 = rfc_add max dyn f) by (inversion W; auto). destruct X as [->| ->]; [left; exact Hh|].
    apply newest_incl in Hh. destruct Hh as [<-|Hh]; [right; left; reflexivity|left; exact Hh].
Qed.
Lemma headers_tokens room max dyn h cs dyn' : table_typed max dyn -> frame_typed (FHeaders h) -> 1 <= hf_id h < 2147483648 -> hf_dep h = None ->
  parts_fields (hf_parts h) = [] -> (forall f, In f (hf_fields h) -> fst f <> str "accept-") ->
  Forall (fun f => Forall h2_char (fst f)) (dyn ++ hf_fields h) -> pieces room max dyn (hf_fields h) [] cs dyn' ->
  Forall (fun c => blen c <= room) cs -> (flag_on (hf_flags h) 0 -> length cs = 1%nat) -> frame_fine room max dyn (FHeaders h).
Proof.
  intros TT T I D P A H C L F. econstructor; try eassumption. apply tokens_fine; [apply T|exact TT| |].
  - intros f Hf. rewrite Forall_forall in H. unfold lower_name. rewrite h2_lower by (apply H, in_or_app; auto). apply A, Hf.
  - intros f g Hf Hg K. rewrite Forall_forall in H. pose proof (H f (in_or_app _ _ _ (or_intror Hf))) as Ff. pose proof (H g Hg) as Fg.
    unfold lower_name. rewrite !h2_lower by assumption.
    apply alike_iff in K; [| |].
    + apply clash_ascii in K; [|apply h2_ascii; assumption..|apply h2_clash_free; assumption]. rewrite !h2_lower in K by assumption. exact K.
    + destruct TT as [_ TO]. destruct T as [_ FO]. apply in_app_or in Hg. rewrite Forall_forall in TO, FO. destruct Hg as [Hg|Hg]; [apply TO, Hg|apply FO, Hg].
    + destruct T as [_ FO]. rewrite Forall_forall in FO. apply FO, Hf.
Qed.

(** *** A field whose code is longer than its text *)
Definition long_field : hfield := (str "x", repeat 249 5000).
Definition long_headers : headersf := mkHeaders 1 None [long_field] parts_default 0.
Lemma long_value lv : str_written (snd long_field) lv -> 17500 <= blen lv <= 20005.
Proof.
  assert (BV : blen (snd long_field) = 5000) by (unfold long_field, blen; cbn [snd]; rewrite repeat_length; reflexivity).
  assert (OV : bytes_ok (snd long_field)). { apply Forall_forall. intros x Hx. apply repeat_spec in Hx. subst x. reflexivity. }
  intros V. destruct (encode_string_written _ OV) as (lv' & E & V'). pose proof (str_written_one _ _ _ V V') as <-.
  apply encode_string_len in E; [|exact OV|rewrite BV; reflexivity]. rewrite BV in E. split; [|lia]. clear E V'.
  destruct V as [h c K (pad & PL & C) I]. apply (f_equal (@length bool)) in C. rewrite text_bits_length, app_length in C.
  assert (FL : length (flat_map huff_word (snd long_field)) = (28 * N.to_nat 5000)%nat).
  { unfold long_field. cbn [snd]. change 5000%nat with (N.to_nat 5000). generalize (N.to_nat 5000). intros n. induction n as [|n IH]; [reflexivity|].
    cbn [repeat flat_map]. rewrite app_length, IH. change (length (huff_word 249)) with 28%nat. lia. }
  rewrite FL in C. rewrite blen_app. unfold blen. lia.
Qed.
Lemma static_x i v : ~ static_at i (lower_name (str "x")) v.
Proof.
  intros [_ H]. change (lower_name (str "x")) with (str "x") in H.
  assert (A : forallb (fun e => negb (beq (fst e) (str "x"))) code_static = true) by (vm_compute; reflexivity).
  rewrite forallb_forall in A. specialize (A _ (nth_error_In _ _ H)). discriminate A.
Qed.
Lemma long_pieces : exists c d, pieces 16384 4096 [] [long_field] [] [c] d /\ 16384 < blen c < 16777000.
Proof.
  assert (BV : blen (snd long_field) = 5000) by (unfold long_field, blen; cbn [snd]; rewrite repeat_length; reflexivity).
  assert (BN : blen (fst long_field) = 1) by reflexivity.
  assert (OV : bytes_ok (snd long_field)). { apply Forall_forall. intros x Hx. apply repeat_spec in Hx. subst x. reflexivity. }
  assert (ON : bytes_ok (lower_name (fst long_field))) by (constructor; [reflexivity|constructor]).
  destruct (encode_string_written _ OV) as (lv & _ & V). destruct (encode_string_written _ ON) as (ln & E & Nm).
  apply encode_string_len in E; [|exact ON|reflexivity]. change (blen (lower_name (fst long_field))) with 1 in E.
  pose proof (long_value lv V) as L.
  exists (64 :: ln ++ lv), (rfc_add 4096 [] long_field). split.
  - apply pc_stay with (l := 64 :: ln ++ lv) (d1 := rfc_add 4096 [] long_field); [change (blen (@nil N)) with 0; lia| |apply pc_end].
    apply fw_new; [exact static_x|intros e []|exact Nm|exact V].
  - rewrite blen_cons, blen_app. lia.
Qed.
Lemma long_typed : table_typed 4096 [] /\ frame_typed (FHeaders long_headers) /\ Forall sendable (hf_fields long_headers).
Proof.
  assert (BV : blen (snd long_field) = 5000) by (unfold long_field, blen; cbn [snd]; rewrite repeat_length; reflexivity).
  assert (OV : bytes_ok (snd long_field)). { apply Forall_forall. intros x Hx. apply repeat_spec in Hx. subst x. reflexivity. }
  split; [split; [apply N.le_0_l|constructor]|]. split.
  - split; [reflexivity|]. constructor; [|constructor]. split; [constructor; [reflexivity|constructor]|exact OV].
  - constructor; [|constructor]. split; [constructor; [reflexivity|constructor]|]. split; [exact OV|]. split; [reflexivity|]. change (snd long_field) with (snd long_field). rewrite BV. reflexivity.
Qed.
Lemma long_written : exists c d b, pieces 16384 4096 [] [long_field] [] [c] d /\ 16384 < blen c /\
  frame_encode 16384 (table_of 4096 []) (FHeaders long_headers) = Ok (table_of 4096 d, b) /\ forall peer', ~ conforms 16384 4096 [] (FHeaders long_headers) b peer'.
Proof.
  destruct long_typed as (TT & T & S). destruct long_pieces as (c & d & PC & L1 & L2).
  exists c, d, (block_framed (end_headers 0) 1 [c]). split; [exact PC|]. split; [exact L1|].
  assert (W : frame_written 16384 4096 [] (FHeaders long_headers) (block_framed (end_headers 0) 1 [c]) d) by (exact (frw_headers 16384 4096 [] long_headers [c] d PC)).
  split; [apply (frame_all 16384 4096 [] (FHeaders long_headers)); [exact TT|exact T|]; exists d; auto|].
  intros peer' C. apply (conforms_exact 16384 4096 [] (FHeaders long_headers) _ d peer') in C; [|reflexivity|exact T| |exact W].
  - destruct C as [C _]. inversion C as [|h0 cs' d' _ _ _ _ PC' LE _| | | | | |]; subst. destruct (pieces_one _ _ _ _ _ _ _ PC _ _ PC') as [<- _].
    apply Forall_inv in LE. lia.
  - split; [exact S|]. split; [apply flag_zero_off|]. split; [apply flag_zero_off|]. cbn [block_framed]. unfold framed. rewrite blen_app.
    change (blen (header_octets (blen c mod 16777216) 1 (end_headers 0) 1)) with 9. lia.
Qed.
