(** Lemmas about threads that share a compression table. *)
From Coq Require Import Ascii String NArith ZArith Lia Bool List ZifyBool ZifyNat ZifyN.
From Coq Require Import Relations.Relation_Operators Wellfounded.Lexicographic_Product.
From Verif Require Import Base S_Utf8 P_Base M_Std M_Helper M_Header M_Huffman M_Hpack.
From Verif Require Import S_Http1 S_Map P_Map S_Huffman S_Hpack S_HpackApi P_Huffman P_Hpack P_HpackTable P_HpackCodec P_HpackSync.
From Verif Require Import M_Share S_Share.
Import ListNotations.
Local Open Scope N_scope.
Ltac Zify.zify_post_hook ::= Z.div_mod_to_equations.

(** ** Replacing an element *)
Lemma set_nth_cons_0 {A} (x y : A) l : set_nth 0 x (y :: l) = x :: l.
Proof. reflexivity. Qed.
Lemma set_nth_cons_S {A} i (x y : A) l : set_nth (S i) x (y :: l) = y :: set_nth i x l.
Proof. reflexivity. Qed.
Lemma set_nth_nil {A} i (x : A) : set_nth i x [] = [].
Proof. destruct i; reflexivity. Qed.
Lemma nth_set_nth_same {A} i (x : A) : forall l y, nth_error l i = Some y -> nth_error (set_nth i x l) i = Some x.
Proof.
  induction i as [|i IH]; intros [|z l] y H; try discriminate; [reflexivity|].
  rewrite set_nth_cons_S. cbn [nth_error]. eapply IH, H.
Qed.
Lemma nth_set_nth_other {A} i (x : A) : forall l j, i <> j -> nth_error (set_nth i x l) j = nth_error l j.
Proof.
  induction i as [|i IH]; intros [|z l] j H; try (rewrite set_nth_nil; reflexivity).
  - destruct j as [|j]; [congruence|reflexivity].
  - rewrite set_nth_cons_S. destruct j as [|j]; [reflexivity|]. cbn [nth_error]. apply IH. congruence.
Qed.
Lemma set_nth_twice {A} i (x y : A) : forall l, set_nth i x (set_nth i y l) = set_nth i x l.
Proof.
  induction i as [|i IH]; intros [|z l]; rewrite ?set_nth_nil; try reflexivity.
  rewrite !set_nth_cons_S, IH. reflexivity.
Qed.
Lemma set_nth_same {A} i (x : A) : forall l, nth_error l i = Some x -> set_nth i x l = l.
Proof.
  induction i as [|i IH]; intros [|z l] H; try discriminate.
  - cbn in H. injection H as ->. reflexivity.
  - rewrite set_nth_cons_S, IH by exact H. reflexivity.
Qed.
Lemma set_nth_length {A} i (x : A) : forall l, length (set_nth i x l) = length l.
Proof.
  induction i as [|i IH]; intros [|z l]; rewrite ?set_nth_nil; try reflexivity.
  rewrite set_nth_cons_S. cbn [length]. rewrite IH. reflexivity.
Qed.
Lemma set_nth_map {A B} (g : A -> B) i (x : A) : forall l, map g (set_nth i x l) = set_nth i (g x) (map g l).
Proof.
  induction i as [|i IH]; intros [|z l]; cbn [map]; rewrite ?set_nth_nil; try reflexivity.
  rewrite !set_nth_cons_S. cbn [map]. rewrite IH. reflexivity.
Qed.

Lemma nth_ext_all {A} : forall l l' : list A, (forall i, nth_error l i = nth_error l' i) -> l = l'.
Proof.
  induction l as [|x l IH]; intros [|y l'] H; [reflexivity|specialize (H 0%nat); discriminate H|specialize (H 0%nat); discriminate H|].
  pose proof (H 0%nat) as H0. cbn in H0. injection H0 as ->. f_equal. apply IH. intros i. exact (H (S i)).
Qed.

(** ** Well-bracketed programs *)
Inductive mode := Out | InR | InW.
Inductive wb : mode -> prog -> Prop :=
| wb_done : wb Out PDone
| wb_panic : wb Out PPanic
| wb_spin : wb Out PSpin
| wb_emit a k : wb Out k -> wb Out (PEmit a k)
| wb_acqr k : wb InR k -> wb Out (PAcqR k)
| wb_acqw k : wb InW k -> wb Out (PAcqW k)
| wb_lookr k : (forall t, wb InR (k t)) -> wb InR (PLook k)
| wb_relr k : wb Out k -> wb InR (PRelR k)
| wb_panicw : wb InW PPanicW
| wb_lookw k : (forall t, wb InW (k t)) -> wb InW (PLook k)
| wb_mod m k : wb InW k -> wb InW (PMod m k)
| wb_relw k : wb Out k -> wb InW (PRelW k).
#[local] Hint Constructors wb : wb.

Lemma wb_evict n k : wb Out k -> wb InW (evict_prog n k).
Proof.
  intros H. induction n as [|n IH]; cbn [evict_prog]; [constructor|]. constructor. intros t.
  destruct (_ <? _); [|auto with wb]. destruct (back _); [|auto with wb]. destruct (_ <? _); auto with wb.
Qed.
Lemma wb_add f k : wb Out k -> wb Out (add_prog f k).
Proof. intros H. unfold add_prog. do 4 constructor. intros t. apply wb_evict, H. Qed.
Lemma wb_maxp m k : wb Out k -> wb Out (max_prog m k).
Proof. intros H. unfold max_prog. do 3 constructor. intros t. apply wb_evict, H. Qed.
Lemma wb_find f k : (forall r, wb Out (k r)) -> wb Out (find_prog f k).
Proof. intros H. unfold find_prog. do 2 constructor. intros t. constructor. apply H. Qed.
Lemma wb_plift {A} (r : res A) kok kerr : (forall a, wb Out (kok a)) -> (forall e, wb Out (kerr e)) -> wb Out (plift r kok kerr).
Proof. intros H1 H2. destruct r; cbn [plift]; auto with wb. Qed.
Lemma wb_enc_header f k : (forall b, wb Out (k b)) -> wb Out (enc_header_prog f k).
Proof.
  intros H. apply wb_find. intros [[i [|]]|]; [apply H| |];
    (apply wb_plift; [intros b; apply wb_add, H|intros; constructor]).
Qed.
Lemma wb_enc l : forall acc k, (forall b, wb Out (k b)) -> wb Out (enc_prog l acc k).
Proof. induction l as [|f l IH]; intros acc k H; cbn [enc_prog]; [apply H|]. apply wb_enc_header. intros b. apply IH, H. Qed.
Lemma wb_literal buf ix kok kerr : (forall a, wb Out (kok a)) -> (forall e, wb Out (kerr e)) ->
  wb Out (dec_literal_prog buf ix kok kerr).
Proof.
  intros H1 H2. unfold dec_literal_prog. apply wb_plift; [intros ic|exact H2].
  destruct (_ =? _).
  - apply wb_plift; [|exact H2]. intros nc. apply wb_plift; assumption.
  - do 2 constructor. intros t. constructor. apply wb_plift; [|exact H2]. intros f. apply wb_plift; assumption.
Qed.
Lemma wb_dec n : forall buf acc k, (forall r, wb Out (k r)) -> wb Out (dec_prog (fun _ k => k) n buf acc k).
Proof.
  induction n as [|n IH]; intros buf acc k H; cbn [dec_prog]; [constructor|].
  destruct buf as [|x buf]; [apply H|]. destruct (representation_of _).
  - constructor. constructor. intros t. destruct (get_from_table _ _); constructor; auto with wb.
  - apply wb_literal; [|auto]. intros fk. apply wb_add, IH, H.
  - constructor.
  - apply wb_literal; auto.
  - apply wb_literal; auto.
Qed.
Lemma wb_call c k : wb Out k -> wb Out (call_prog c k).
Proof.
  intros H. destruct c as [fs|b|m]; cbn [call_prog].
  - apply wb_enc. auto with wb.
  - apply wb_dec. auto with wb.
  - apply wb_maxp. auto with wb.
Qed.
Lemma wb_thread l : wb Out (thread_prog l).
Proof. induction l as [|c l IH]; cbn; [constructor|]. apply wb_call, IH. Qed.

(** Outside the lock the table plays no role. *)
Lemma go_out p : wb Out p -> exists o q, forall t, go p t = (t, o, q).
Proof.
  induction p as [| | | |a k IH| | | | | |]; intros W; inversion W; subst; try (eexists; eexists; intros t; reflexivity).
  destruct IH as (o & q & E); [assumption|]. exists (a :: o), q. intros t. cbn [go]. rewrite E. reflexivity.
Qed.
Lemma go_read p : wb InR p -> forall t, exists o q, go p t = (t, o, q).
Proof.
  induction p as [| | | | | |k IH| | |k IH|]; intros W t; inversion W; subst.
  - cbn [go]. destruct (go_out k) as (o & q & E); [assumption|]. rewrite E. eauto.
  - cbn [go]. apply IH. auto.
Qed.

(** ** Programs that keep the table in order *)
Definition tab_step (Q : tevent -> Prop) (t t' : hindex) : Prop :=
  t' = t \/ exists e, Q e /\ t_step (Ok t) e = Ok t'.
Lemma tab_step_inv Q t t' : idx_inv t -> tab_step Q t t' -> idx_inv t'.
Proof.
  intros I [->|(e & _ & E)]; [exact I|]. destruct (t_step_spec t e I) as (t2 & E2 & I2 & _). congruence.
Qed.

Inductive good (Q : tevent -> Prop) : prog -> Prop :=
| good_done : good Q PDone
| good_spin : good Q PSpin
| good_acq p k : p = PAcqR k \/ p = PAcqW k ->
    (forall t t' o q, idx_inv t -> go k t = (t', o, q) -> tab_step Q t t') ->
    (forall t t' o q, idx_inv t -> go k t = (t', o, q) -> good Q q) -> good Q p.

(** A program outside the lock that hands out some answers and goes on well. *)
Definition outp (Q : tevent -> Prop) (p : prog) : Prop := exists o q, good Q q /\ forall t, go p t = (t, o, q).

Lemma good_stop Q p t : good Q p -> go p t = (t, [], p).
Proof. intros H. inversion H as [| |p' k [->| ->] _ _]; reflexivity. Qed.
Lemma good_outp Q p : good Q p -> outp Q p.
Proof. intros H. exists [], p. split; [exact H|]. intros t. eapply good_stop, H. Qed.
Lemma outp_emit Q a k : outp Q k -> outp Q (PEmit a k).
Proof. intros (o & q & G & E). exists (a :: o), q. split; [exact G|]. intros t. cbn [go]. rewrite E. reflexivity. Qed.

Lemma go_evict n k : forall t t', consolidate n t = Ok t' -> go (evict_prog n k) t = go k t'.
Proof.
  induction n as [|n IH]; intros t t' H; [discriminate|]. cbn [consolidate] in H. cbn [evict_prog go].
  destruct (hi_max t <? hi_size t) eqn:E1; [|injection H as <-; reflexivity].
  destruct (back (hi_table t)) as [e|] eqn:E2; [|discriminate].
  destruct (hi_size t <? entry_size e) eqn:E3; [discriminate|].
  cbn [go hi_table hi_size hi_max]. apply IH, H.
Qed.

Lemma good_add (Q : tevent -> Prop) f k : Q (TAdd f) -> outp Q k -> good Q (add_prog f k).
Proof.
  intros Hf (o & q & G & E). eapply good_acq; [right; reflexivity| |];
    intros t t' o' q' I; cbn [go hi_table hi_size hi_max];
    pose proof (add_header_spec t f I) as A; unfold add_header, consolidate_table in A; cbn [hi_table] in A;
    rewrite (go_evict _ k _ _ A), E; intros [= <- <- <-]; [|exact G].
  right. exists (TAdd f). split; [exact Hf|]. cbn [t_step bind]. exact (add_header_spec t f I).
Qed.
Lemma good_max (Q : tevent -> Prop) m k : Q (TMax m) -> outp Q k -> good Q (max_prog m k).
Proof.
  intros Hm (o & q & G & E). eapply good_acq; [right; reflexivity| |];
    intros t t' o' q' I; cbn [go hi_table hi_size hi_max];
    pose proof (set_max_spec t m I) as A; unfold set_max_table_size, consolidate_table in A; cbn [hi_table] in A;
    rewrite (go_evict _ k _ _ A), E; intros [= <- <- <-]; [|exact G].
  right. exists (TMax m). split; [exact Hm|]. cbn [t_step bind]. exact (set_max_spec t m I).
Qed.
Lemma good_look Q (k : hindex -> prog) : (forall t, outp Q (k t)) -> good Q (PAcqR (PLook (fun t => PRelR (k t)))).
Proof.
  intros H. eapply good_acq; [left; reflexivity| |]; intros t t' o' q' I; cbn [go];
    destruct (H t) as (o & q & G & E); rewrite E; intros [= <- <- <-]; [left; reflexivity|exact G].
Qed.

Lemma encode_string_ok s : bytes_ok s -> blen s < 2 ^ 26 -> exists b, encode_string s = Ok b.
Proof. intros H1 H2. destruct (encode_string_repr s H1 H2) as (b & E & _). eauto. Qed.
Lemma encode_lower_ok s : bytes_ok s -> blen s < 2 ^ 26 -> exists b, encode_string_lower s = Ok b.
Proof. intros H1 H2. destruct (encode_string_lower_repr s H1 H2) as (b & E & _). eauto. Qed.
Lemma literal_ok f : sendable f -> exists b, encode_literal f true = Ok b.
Proof.
  intros (Hn & Hv & Ln & Lv). unfold encode_literal.
  destruct (encode_lower_ok (fst f) (ascii_ok _ Hn) Ln) as [n ->]. destruct (encode_string_ok (snd f) Hv Lv) as [v ->].
  cbn [bind]. eauto.
Qed.
Lemma indexed_name_ok i f : sendable f -> exists b, encode_indexed_name i (snd f) true = Ok b.
Proof.
  intros (Hn & Hv & Ln & Lv). unfold encode_indexed_name. destruct (encode_string_ok (snd f) Hv Lv) as [v ->].
  cbn [bind]. eauto.
Qed.

Lemma good_enc_header (Q : tevent -> Prop) f k : sendable f -> Q (TAdd f) -> (forall b, outp Q (k b)) ->
  good Q (enc_header_prog f k).
Proof.
  intros S Hf H. unfold enc_header_prog, find_prog. apply good_look. intros t.
  destruct (find_header t f) as [[i [|]]|]; [apply H| |].
  - destruct (indexed_name_ok i f S) as [b ->]. cbn [plift]. apply good_outp, good_add; auto.
  - destruct (literal_ok f S) as [b ->]. cbn [plift]. apply good_outp, good_add; auto.
Qed.
Lemma outp_enc (Q : tevent -> Prop) l : Forall sendable l -> (forall f, In f l -> Q (TAdd f)) -> forall acc k,
  (forall b, outp Q (k b)) -> outp Q (enc_prog l acc k).
Proof.
  induction 1 as [|f l S _ IH]; intros HQ acc k H; cbn [enc_prog]; [apply H|].
  apply good_outp, good_enc_header; [exact S|apply HQ; left; reflexivity|].
  intros b. apply IH; [|exact H]. intros g Hg. apply HQ. right. exact Hg.
Qed.

(** ** The parts of a literal *)
Definition value_part (buf : bytes) (name : bytes) (consumed : N) : res (hfield * N) :=
  rest <- slice_from buf consumed ;; ' (v, k) <- decode_string rest ;; Ok ((name, v), consumed + k).
Definition name_part (buf : bytes) (consumed : N) : res (bytes * N) :=
  rest <- slice_from buf consumed ;; ' (n, k) <- decode_string rest ;; Ok (name_from_bytes n, consumed + k).

Lemma slice_in buf m : m <= blen buf -> slice_from buf m = Ok (skipn (N.to_nat m) buf).
Proof. intros H. unfold slice_from. destruct (N.ltb_spec (blen buf) m) as [L|L]; [lia|reflexivity]. Qed.
Lemma blen_skipn (buf : bytes) m : blen (skipn (N.to_nat m) buf) = blen buf - m.
Proof. unfold blen. rewrite skipn_length. lia. Qed.
Lemma value_total buf name c : c <= blen buf ->
  (exists a, value_part buf name c = Ok a) \/ exists e, value_part buf name c = Err e.
Proof.
  intros H. unfold value_part. rewrite slice_in by exact H. cbn [bind].
  destruct (decode_string_total (skipn (N.to_nat c) buf)) as [(v & k & -> & _)|(e & -> & _)]; cbn [bind]; eauto.
Qed.
Lemma name_total buf c : c <= blen buf ->
  (exists n c', name_part buf c = Ok (n, c') /\ c' <= blen buf) \/ exists e, name_part buf c = Err e.
Proof.
  intros H. unfold name_part. rewrite slice_in by exact H. cbn [bind].
  destruct (decode_string_total (skipn (N.to_nat c) buf)) as [(v & k & -> & _ & B)|(e & -> & _)]; cbn [bind]; [left|right; eauto].
  eexists. eexists. split; [reflexivity|]. rewrite blen_skipn in B. lia.
Qed.
Lemma literal_prog_eq buf ix kok kerr : dec_literal_prog buf ix kok kerr =
  plift (decode_integer buf (if ix then 6 else 4)) (fun ic =>
    if fst ic =? 0 then plift (name_part buf (snd ic)) (fun nc => plift (value_part buf (fst nc) (snd nc)) kok kerr) kerr
    else PAcqR (PLook (fun t => PRelR (plift (get_from_table t (fst ic))
           (fun f => plift (value_part buf (fst f) (snd ic)) kok kerr) kerr)))) kerr.
Proof. reflexivity. Qed.
Lemma literal_parts t buf ix : decode_literal t buf ix =
  ic <- decode_integer buf (if ix then 6 else 4) ;;
  if fst ic =? 0 then nc <- name_part buf (snd ic) ;; value_part buf (fst nc) (snd nc)
  else f <- get_from_table t (fst ic) ;; value_part buf (fst f) (snd ic).
Proof.
  unfold decode_literal, name_part, value_part. destruct (decode_integer _ _) as [[i n]|e| |]; cbn [bind fst snd]; try reflexivity.
  destruct (i =? 0).
  - destruct (slice_from buf n) as [r|e| |]; cbn [bind]; try reflexivity.
    destruct (decode_string r) as [[nm k]|e| |]; cbn [bind fst snd]; reflexivity.
  - destruct (get_from_table t i) as [f|e| |]; cbn [bind fst snd]; reflexivity.
Qed.

Lemma outp_literal Q buf ix kok kerr : (forall a, outp Q (kok a)) -> (forall e, outp Q (kerr e)) ->
  outp Q (dec_literal_prog buf ix kok kerr).
Proof.
  intros H1 H2. rewrite literal_prog_eq.
  assert (V : forall nm c, c <= blen buf -> outp Q (plift (value_part buf nm c) kok kerr)).
  { intros nm c L. destruct (value_total buf nm c L) as [[a ->]|[e ->]]; cbn [plift]; auto. }
  destruct (decode_integer_total buf (if ix then 6 else 4)) as [[[i n] E]|[e E]]; rewrite E; cbn [plift fst snd]; [|apply H2].
  pose proof (decode_integer_bound _ _ _ _ E) as [_ B]. destruct (i =? 0).
  - destruct (name_total buf n B) as [(nm & c & -> & L)|[e ->]]; cbn [plift fst snd]; auto.
  - apply good_outp, good_look. intros t. unfold get_from_table. destruct (get_from_index t i); cbn [plift]; auto.
Qed.

Lemma outp_dec (Q : tevent -> Prop) n : (forall f, Q (TAdd f)) -> forall buf acc k, (forall r, outp Q (k r)) ->
  outp Q (dec_prog (fun _ k => k) n buf acc k).
Proof.
  intros HQ. induction n as [|n IH]; intros buf acc k H; cbn [dec_prog]; [apply good_outp; constructor|].
  destruct buf as [|x buf]; [apply H|]. destruct (representation_of _).
  - apply good_outp. eapply good_acq; [left; reflexivity| |]; intros t t' o' q' I; cbn [go];
      unfold get_from_table; destruct (get_from_index t _) as [f|]; cbn [go];
      [destruct (IH (skipn 1 (x :: buf)) (acc ++ [f]) k H) as (o & q & G & E)|destruct (H (Err oob_err)) as (o & q & G & E)
      |destruct (IH (skipn 1 (x :: buf)) (acc ++ [f]) k H) as (o & q & G & E)|destruct (H (Err oob_err)) as (o & q & G & E)];
      rewrite E; intros [= <- <- <-]; try (left; reflexivity); exact G.
  - apply outp_literal; [|auto]. intros fk. apply good_outp, good_add; auto.
  - apply good_outp. constructor.
  - apply outp_literal; auto.
  - apply outp_literal; auto.
Qed.

Lemma outp_call (Q : tevent -> Prop) c k : callable c ->
  (forall fs f, c = CEncode fs -> In f fs -> Q (TAdd f)) -> (forall b f, c = CDecode b -> Q (TAdd f)) ->
  (forall m, c = CMax m -> Q (TMax m)) -> outp Q k -> outp Q (call_prog c k).
Proof.
  intros C H1 H2 H3 K. destruct c as [fs|b|m]; cbn [call_prog callable] in *.
  - apply outp_enc; [exact C|eauto|]. intros b. apply outp_emit, K.
  - apply outp_dec; [eauto|]. intros r. apply outp_emit, K.
  - apply good_outp, good_max; [eauto|]. apply outp_emit, K.
Qed.
Lemma outp_thread scripts l : callables scripts -> In l scripts -> outp (asked scripts) (thread_prog l).
Proof.
  intros C Hl. unfold callables in C. rewrite Forall_forall in C. pose proof (C l Hl) as Cl.
  assert (G : forall l', incl l' l -> outp (asked scripts) (thread_prog l')).
  { induction l' as [|c l' IH]; intros Hi; cbn; [apply good_outp; constructor|].
    assert (Hc : In c l) by (apply Hi; left; reflexivity).
    apply outp_call; [rewrite Forall_forall in Cl; auto| | | |].
    - intros fs f -> Hf. exists l. split; [exact Hl|]. left. eauto.
    - intros b f ->. exists l. split; [exact Hl|]. right. eauto.
    - intros m ->. exists l. auto.
    - apply IH. intros x Hx. apply Hi. right. exact Hx. }
  apply G, incl_refl.
Qed.

(** ** The invariant: the state with locks follows the state of critical sections *)
Definition thr (Q : tevent -> Prop) (atab tab : hindex) (m : mode) (c a : prog * list answer) : Prop :=
  wb m (fst c) /\ good Q (fst a) /\ exists o2, snd a = snd c ++ o2 /\
  match m with
  | Out => forall t, go (fst c) t = (t, o2, fst a)
  | InR => go (fst c) tab = (tab, o2, fst a)
  | InW => go (fst c) tab = (atab, o2, fst a)
  end.
Definition is_r (m : mode) : bool := match m with InR => true | _ => false end.
Definition is_w (m : mode) : bool := match m with InW => true | _ => false end.
Definition readers_of (ms : list mode) : N := N.of_nat (length (filter is_r ms)).
Definition writers_of (ms : list mode) : N := N.of_nat (length (filter is_w ms)).

Definition sim (Q : tevent -> Prop) (s : sys) (ms : list mode) (a : hindex * list (prog * list answer)) : Prop :=
  sh_poison s = false /\ idx_inv (fst a) /\
  sh_readers s = readers_of ms /\ writers_of ms = (if sh_writer s then 1 else 0) /\
  (sh_writer s = true -> readers_of ms = 0) /\ (sh_writer s = false -> sh_tab s = fst a) /\
  length ms = length (sh_threads s) /\ length (snd a) = length (sh_threads s) /\
  forall i m c x, nth_error ms i = Some m -> nth_error (sh_threads s) i = Some c -> nth_error (snd a) i = Some x ->
    thr Q (fst a) (sh_tab s) m c x.

Lemma count_set (f : mode -> bool) i x : forall ms y, nth_error ms i = Some y ->
  N.of_nat (length (filter f (set_nth i x ms))) + (if f y then 1 else 0) =
  N.of_nat (length (filter f ms)) + (if f x then 1 else 0).
Proof.
  induction i as [|i IH]; intros [|z ms] y H; try discriminate.
  - cbn in H. injection H as ->. rewrite set_nth_cons_0. cbn [filter]. destruct (f x), (f y); cbn [length]; lia.
  - rewrite set_nth_cons_S. cbn [filter]. cbn [nth_error] in H. specialize (IH ms y H). destruct (f z); cbn [length]; lia.
Qed.
Lemma count_pos (f : mode -> bool) ms i m : nth_error ms i = Some m -> f m = true -> 1 <= N.of_nat (length (filter f ms)).
Proof.
  intros H F. apply nth_error_In in H. assert (In m (filter f ms)) by (apply filter_In; auto).
  destruct (filter f ms); [contradiction|]. cbn [length]. lia.
Qed.
Lemma count_two (f : mode -> bool) i j : forall ms m m', i <> j -> nth_error ms i = Some m -> nth_error ms j = Some m' ->
  f m = true -> f m' = true -> 2 <= N.of_nat (length (filter f ms)).
Proof.
  revert j. induction i as [|i IH]; intros [|j] [|z ms] m m' N Hi Hj F F'; try discriminate; try congruence.
  - cbn in Hi. injection Hi as ->. cbn [filter]. rewrite F. cbn [length]. cbn [nth_error] in Hj.
    pose proof (count_pos f ms j m' Hj F'). lia.
  - cbn in Hj. injection Hj as ->. cbn [filter]. rewrite F'. cbn [length]. cbn [nth_error] in Hi.
    pose proof (count_pos f ms i m Hi F). lia.
  - cbn [nth_error] in *. cbn [filter]. pose proof (IH j ms m m' ltac:(congruence) Hi Hj F F'). destruct (f z); cbn [length]; lia.
Qed.

Lemma sim_upd Q s ms a i m c x m' c' x' tab' atab' readers' (writer' : bool) :
  sim Q s ms a -> nth_error ms i = Some m -> nth_error (sh_threads s) i = Some c -> nth_error (snd a) i = Some x ->
  thr Q atab' tab' m' c' x' ->
  ((atab' = fst a /\ tab' = sh_tab s) \/ (forall j mj, j <> i -> nth_error ms j = Some mj -> mj = Out)) ->
  idx_inv atab' -> readers' = readers_of (set_nth i m' ms) ->
  writers_of (set_nth i m' ms) = (if writer' then 1 else 0) ->
  (writer' = true -> readers_of (set_nth i m' ms) = 0) -> (writer' = false -> tab' = atab') ->
  sim Q (mkSys tab' readers' writer' false (set_nth i c' (sh_threads s))) (set_nth i m' ms) (atab', set_nth i x' (snd a)).
Proof.
  intros (P & I & R & W & E & T & L1 & L2 & F) Hm Hc Hx H O I' R' W' E' T'.
  split; [reflexivity|]. split; [exact I'|]. cbn [sh_readers sh_writer sh_tab sh_threads fst snd].
  split; [exact R'|]. split; [exact W'|]. split; [exact E'|]. split; [exact T'|]. rewrite !set_nth_length.
  split; [exact L1|]. split; [exact L2|]. intros j mj cj xj.
  destruct (Nat.eq_dec i j) as [<-|N].
  - rewrite (nth_set_nth_same _ _ _ _ Hm), (nth_set_nth_same _ _ _ _ Hc), (nth_set_nth_same _ _ _ _ Hx).
    intros [= <-] [= <-] [= <-]. exact H.
  - rewrite !nth_set_nth_other by exact N. intros Hmj Hcj Hxj.
    pose proof (F j mj cj xj Hmj Hcj Hxj) as K. destruct O as [[-> ->]|O]; [exact K|].
    rewrite (O j mj (not_eq_sym N) Hmj) in *. exact K.
Qed.

Lemma sim_threads Q s ms a i c : sim Q s ms a -> nth_error (sh_threads s) i = Some c ->
  exists m x, nth_error ms i = Some m /\ nth_error (snd a) i = Some x.
Proof.
  intros (_ & _ & _ & _ & _ & _ & L1 & L2 & _) H.
  assert (L : (i < length (sh_threads s))%nat) by (apply nth_error_Some; congruence).
  destruct (nth_error ms i) as [m|] eqn:E1; [|apply nth_error_None in E1; lia].
  destruct (nth_error (snd a) i) as [x|] eqn:E2; [|apply nth_error_None in E2; lia]. eauto.
Qed.

(** Counting after a change of mode *)
Lemma others_out_w ms i : nth_error ms i = Some InW -> writers_of ms = 1 -> readers_of ms = 0 ->
  forall j mj, j <> i -> nth_error ms j = Some mj -> mj = Out.
Proof.
  intros Hi W R j mj N Hj. destruct mj; [reflexivity| |].
  - pose proof (count_pos is_r ms j InR Hj eq_refl) as C. unfold readers_of in R. lia.
  - pose proof (count_two is_w i j ms InW InW (not_eq_sym N) Hi Hj eq_refl eq_refl) as C. unfold writers_of in W. lia.
Qed.
Lemma others_out_free ms : writers_of ms = 0 -> readers_of ms = 0 -> forall j mj, nth_error ms j = Some mj -> mj = Out.
Proof.
  intros W R j mj Hj. destruct mj; [reflexivity| |].
  - pose proof (count_pos is_r ms j InR Hj eq_refl) as C. unfold readers_of in R. lia.
  - pose proof (count_pos is_w ms j InW Hj eq_refl) as C. unfold writers_of in W. lia.
Qed.

Lemma a_pair (a : hindex * list (prog * list answer)) i x : nth_error (snd a) i = Some x ->
  (fst a, set_nth i x (snd a)) = a.
Proof. intros H. rewrite set_nth_same by exact H. destruct a; reflexivity. Qed.

Lemma sim_step Q s ms a i : sim Q s ms a -> exists ms' a', sim Q (step i s) ms' a' /\
  (a' = a \/ a' = astep i a) /\ tab_step Q (fst a) (fst a').
Proof.
  intros S. unfold step. destruct (nth_error (sh_threads s) i) as [[p o]|] eqn:Hc.
  2: { exists ms, a. split; [exact S|]. split; [auto|]. left. reflexivity. }
  destruct (sim_threads _ _ _ _ _ _ S Hc) as (m & [q oa] & Hm & Hx).
  assert (S' := S). destruct S' as (P & I & R & W & E & T & L1 & L2 & F).
  destruct (F i m _ _ Hm Hc Hx) as (B & G & o2 & Ho & K). cbn [fst snd] in B, G, Ho, K.
  assert (STAY : exists ms' a', sim Q s ms' a' /\ (a' = a \/ a' = astep i a) /\ tab_step Q (fst a) (fst a')).
  { exists ms, a. split; [exact S|]. split; [auto|]. left. reflexivity. }
  (* a step without locks and without changing the table *)
  assert (LOCAL : forall p' o', (exists o3, o' ++ o3 = oa /\
      wb m p' /\ match m with Out => forall t, go p' t = (t, o3, q) | InR => go p' (sh_tab s) = (sh_tab s, o3, q)
                 | InW => go p' (sh_tab s) = (fst a, o3, q) end) ->
    exists ms' a', sim Q (mkSys (sh_tab s) (sh_readers s) (sh_writer s) (sh_poison s) (set_nth i (p', o') (sh_threads s))) ms' a' /\
      (a' = a \/ a' = astep i a) /\ tab_step Q (fst a) (fst a')).
  { intros p' o' (o3 & E3 & B' & K'). exists ms, a. split; [|split; [auto|left; reflexivity]].
    rewrite P. rewrite <- (a_pair a i (q, oa) Hx) at 1. rewrite <- (set_nth_same i m ms Hm) at 1.
    eapply sim_upd; try eassumption; rewrite ?(set_nth_same i m ms Hm); auto.
    split; [exact B'|]. split; [exact G|]. exists o3. split; [symmetry; exact E3|exact K']. }
  destruct p as [| | | |x k|k|k|k|k|k|md k]; try exact STAY.
  - (* PPanicW *) inversion B; subst m. cbn [go] in K. injection K as _ _ <-. inversion G as [| |p' k' [?|?] _ _]; discriminate.
  - (* PEmit *) inversion B; subst m. unfold set_thread. apply LOCAL.
    destruct (go_out k ltac:(assumption)) as (o3 & q3 & E3).
    assert (K0 := K (sh_tab s)). cbn [go] in K0. rewrite E3 in K0. injection K0 as K1 K2. subst o2 q3.
    exists o3. split; [rewrite <- app_assoc; symmetry; exact Ho|]. split; [assumption|]. exact E3.
  - (* PAcqR *) inversion B; subst m. destruct (sh_writer s) eqn:Ew; [exact STAY|]. rewrite P.
    pose proof (K (sh_tab s)) as K0. cbn [go] in K0. injection K0 as K1 K2. subst o2 q. rewrite app_nil_r in Ho. subst oa.
    destruct (go_read k ltac:(assumption) (fst a)) as (o3 & q3 & E3).
    exists (set_nth i InR ms), (astep i a). unfold astep. rewrite Hx. cbn [sect]. rewrite E3. cbn [fst snd].
    split; [|split; [right; reflexivity|left; reflexivity]].
    pose proof (count_set is_r i InR ms Out Hm) as CR. pose proof (count_set is_w i InR ms Out Hm) as CW. cbn [is_r is_w] in CR, CW.
    fold (readers_of ms) (readers_of (set_nth i InR ms)) in CR. fold (writers_of ms) (writers_of (set_nth i InR ms)) in CW.
    eapply sim_upd; try eassumption.
    + split; [assumption|]. split.
      * inversion G as [| |p' k' [Ek|Ek] G1 G2]; [|discriminate Ek]. injection Ek as <-. eapply G2; [exact I|exact E3].
      * exists o3. split; [reflexivity|]. cbn [fst]. rewrite (T eq_refl). exact E3.
    + left. auto.
    + lia.
    + lia.
    + discriminate.
  - (* PRelR *) inversion B; subst m. unfold set_thread. rewrite P.
    exists (set_nth i Out ms), a. split; [|split; [auto|left; reflexivity]].
    pose proof (count_set is_r i Out ms InR Hm) as CR. pose proof (count_set is_w i Out ms InR Hm) as CW. cbn [is_r is_w] in CR, CW.
    fold (readers_of ms) (readers_of (set_nth i Out ms)) in CR. fold (writers_of ms) (writers_of (set_nth i Out ms)) in CW.
    assert (Wf : sh_writer s = false) by (destruct (sh_writer s); [specialize (E eq_refl); lia|reflexivity]).
    rewrite <- (a_pair a i (q, oa) Hx) at 1.
    eapply sim_upd; try eassumption.
    + split; [assumption|]. split; [exact G|]. exists o2. split; [exact Ho|].
      destruct (go_out k ltac:(assumption)) as (o3 & q3 & E3). cbn [go] in K. rewrite E3 in K. injection K as <- <-. exact E3.
    + left. auto.
    + lia.
    + rewrite Wf in *. lia.
    + rewrite Wf. discriminate.
  - (* PAcqW *) inversion B; subst m. destruct (sh_writer s) eqn:Ew; [exact STAY|]. cbn [orb].
    destruct (N.eqb_spec (sh_readers s) 0) as [R0|R0]; [|exact STAY]. cbn [negb]. rewrite P.
    pose proof (K (sh_tab s)) as K0. cbn [go] in K0. injection K0 as K1 K2. subst o2 q. rewrite app_nil_r in Ho. subst oa.
    destruct (go k (fst a)) as [[t3 o3] q3] eqn:E3.
    inversion G as [| |p' k' [Ek|Ek] G1 G2]; [discriminate Ek|]. injection Ek as <-.
    exists (set_nth i InW ms), (astep i a). unfold astep. rewrite Hx. cbn [sect]. rewrite E3. cbn [fst snd].
    split; [|split; [right; reflexivity|eapply G1; [exact I|exact E3]]].
    pose proof (count_set is_r i InW ms Out Hm) as CR. pose proof (count_set is_w i InW ms Out Hm) as CW. cbn [is_r is_w] in CR, CW.
    fold (readers_of ms) (readers_of (set_nth i InW ms)) in CR. fold (writers_of ms) (writers_of (set_nth i InW ms)) in CW.
    eapply sim_upd; try eassumption.
    + split; [assumption|]. split; [eapply G2; [exact I|exact E3]|].
      exists o3. split; [reflexivity|]. cbn [fst]. rewrite (T eq_refl). exact E3.
    + right. intros j mj _ Hj. eapply others_out_free; [exact W|lia|exact Hj].
    + eapply tab_step_inv; [exact I|eapply G1; [exact I|exact E3]].
    + lia.
    + lia.
    + intros _. lia.
    + discriminate.
  - (* PRelW *) inversion B; subst m. unfold set_thread. rewrite P.
    exists (set_nth i Out ms), a. split; [|split; [auto|left; reflexivity]].
    pose proof (count_set is_r i Out ms InW Hm) as CR. pose proof (count_set is_w i Out ms InW Hm) as CW. cbn [is_r is_w] in CR, CW.
    fold (readers_of ms) (readers_of (set_nth i Out ms)) in CR. fold (writers_of ms) (writers_of (set_nth i Out ms)) in CW.
    pose proof (count_pos is_w ms i InW Hm eq_refl) as CP. fold (writers_of ms) in CP.
    assert (Wt : sh_writer s = true) by (destruct (sh_writer s); [reflexivity|lia]). rewrite Wt in *. specialize (E eq_refl).
    rewrite <- (a_pair a i (q, oa) Hx) at 1.
    destruct (go_out k ltac:(assumption)) as (o3 & q3 & E3). cbn [go] in K. rewrite E3 in K. injection K as K1 <- <-.
    eapply sim_upd; try eassumption.
    + split; [assumption|]. split; [exact G|]. exists o3. split; [exact Ho|]. exact E3.
    + left. auto.
    + lia.
    + lia.
    + discriminate.
    + intros _. exact K1.
  - (* PLook *) unfold set_thread. apply LOCAL. exists o2. split; [symmetry; exact Ho|].
    inversion B; subst m; (split; [auto|exact K]).
  - (* PMod *) inversion B; subst m. unfold set_thread. rewrite P.
    exists ms, a. split; [|split; [auto|left; reflexivity]].
    pose proof (count_pos is_w ms i InW Hm eq_refl) as CP. fold (writers_of ms) in CP.
    assert (Wt : sh_writer s = true) by (destruct (sh_writer s); [reflexivity|lia]).
    rewrite <- (a_pair a i (q, oa) Hx) at 1. rewrite <- (set_nth_same i InW ms Hm) at 1.
    eapply sim_upd; try eassumption; rewrite ?(set_nth_same i InW ms Hm); auto.
    + split; [assumption|]. split; [exact G|]. exists o2. split; [exact Ho|]. exact K.
    + right. intros j mj N Hj. rewrite Wt in W. eapply others_out_w; [exact Hm|exact W|apply E, Wt|exact N|exact Hj].
    + rewrite Wt. discriminate.
Qed.

(** ** Runs *)
Lemma subseq_refl {A} (l : list A) : subseq l l.
Proof. induction l; constructor; assumption. Qed.

Lemma sim_run Q sched : forall s ms a, sim Q s ms a -> exists order ms' evs, subseq order sched /\
  sim Q (run sched s) ms' (arun order a) /\ Forall Q evs /\ fold_left t_step evs (Ok (fst a)) = Ok (fst (arun order a)).
Proof.
  induction sched as [|i sched IH]; intros s ms a S.
  - exists [], ms, []. split; [constructor|]. split; [exact S|]. split; [constructor|reflexivity].
  - destruct (sim_step Q s ms a i S) as (ms1 & a1 & S1 & D & T).
    destruct (IH _ _ _ S1) as (order & ms2 & evs & H1 & H2 & H3 & H4).
    assert (TE : exists evs', Forall Q evs' /\ fold_left t_step evs' (Ok (fst a)) = Ok (fst a1)).
    { destruct T as [->|(e & Qe & Ee)]; [exists []; split; [constructor|reflexivity]|].
      exists [e]. split; [constructor; [exact Qe|constructor]|]. cbn [fold_left]. exact Ee. }
    destruct TE as (evs' & F' & E').
    destruct D as [->| ->].
    + exists order, ms2, (evs' ++ evs). split; [constructor; exact H1|]. split; [exact H2|].
      split; [apply Forall_app; auto|]. rewrite fold_left_app, E'. exact H4.
    + exists (i :: order), ms2, (evs' ++ evs). split; [apply sub_take, H1|]. split; [exact H2|].
      split; [apply Forall_app; auto|]. rewrite fold_left_app, E'. exact H4.
Qed.

Lemma filter_false {A} (f : mode -> bool) (l : list A) : f Out = false -> filter f (map (fun _ => Out) l) = [].
Proof. intros H. induction l as [|x l IH]; [reflexivity|]. cbn [map filter]. rewrite H. exact IH. Qed.

Lemma sim_start m scripts : callables scripts ->
  sim (asked scripts) (start m scripts) (map (fun _ => Out) scripts) (astart m scripts).
Proof.
  intros C. unfold sim, start, astart, readers_of, writers_of. cbn [sh_poison sh_readers sh_writer sh_tab sh_threads fst snd].
  rewrite !filter_false by reflexivity. rewrite !map_length.
  split; [reflexivity|]. split; [apply fresh_inv|]. do 6 (split; [first [reflexivity|intros; reflexivity|intros; discriminate]|]).
  intros i md c x. rewrite !nth_error_map. destruct (nth_error scripts i) as [l|] eqn:E; [|discriminate].
  cbn [option_map]. intros [= <-] [= <-].
  destruct (outp_thread scripts l C (nth_error_In _ _ E)) as (o & q & G & K). rewrite K. intros [= <-].
  split; [apply wb_thread|]. split; [exact G|]. exists o. split; [reflexivity|]. exact K.
Qed.

Lemma shared_run m scripts sched : callables scripts -> exists order ms evs, subseq order sched /\
  sim (asked scripts) (run sched (start m scripts)) ms (arun order (astart m scripts)) /\
  Forall (asked scripts) evs /\ t_run m evs = Ok (fst (arun order (astart m scripts))).
Proof. intros C. apply (sim_run _ sched _ _ _ (sim_start m scripts C)). Qed.

(** ** What the invariant says *)
Lemma sim_not_crashed Q s ms a i p o : sim Q s ms a -> nth_error (sh_threads s) i = Some (p, o) -> ~ crashed p.
Proof.
  intros S Hc. destruct (sim_threads _ _ _ _ _ _ S Hc) as (m & [q oa] & Hm & Hx).
  destruct S as (_ & _ & _ & _ & _ & _ & _ & _ & F). destruct (F i m _ _ Hm Hc Hx) as (B & G & o2 & _ & K). cbn [fst snd] in *.
  intros [->| ->]; inversion B; subst m; cbn [go] in K.
  - specialize (K (sh_tab s)). injection K as _ <-. inversion G as [| |p' k' [?|?] _ _]; discriminate.
  - injection K as _ _ <-. inversion G as [| |p' k' [?|?] _ _]; discriminate.
Qed.

Lemma shared_safe m scripts sched : callables scripts -> let s := run sched (start m scripts) in
  sh_poison s = false /\ (forall i p o, nth_error (sh_threads s) i = Some (p, o) -> ~ crashed p) /\
  (sh_writer s = false -> hi_size (sh_tab s) = total_size (hi_table (sh_tab s)) /\ hi_size (sh_tab s) <= hi_max (sh_tab s) /\
     exists evs, Forall (asked scripts) evs /\ (hi_max (sh_tab s), hi_table (sh_tab s)) = rfc_run m evs).
Proof.
  intros C s. destruct (shared_run m scripts sched C) as (order & ms & evs & _ & S & Fe & E).
  fold s in S. split; [apply S|]. split; [intros i p o; eapply sim_not_crashed, S|].
  intros W. destruct (t_run_spec m evs) as (t & E1 & I & R). rewrite E in E1. injection E1 as <-.
  assert (T : sh_tab s = fst (arun order (astart m scripts))) by (apply S, W). rewrite T.
  split; [apply I|]. split; [apply I|]. exists evs. split; [exact Fe|exact R].
Qed.

Lemma between_go p t : between p -> go p t = (t, [], p).
Proof. destruct p; intros H; try contradiction; reflexivity. Qed.
Lemma between_out m p : wb m p -> between p -> m = Out.
Proof. intros W B. inversion W; subst; try reflexivity; contradiction. Qed.

Lemma shared_linear m scripts sched : callables scripts -> let s := run sched (start m scripts) in
  (forall i p o, nth_error (sh_threads s) i = Some (p, o) -> between p) ->
  exists order, subseq order sched /\ (sh_tab s, sh_threads s) = arun order (astart m scripts).
Proof.
  intros C s B. destruct (shared_run m scripts sched C) as (order & ms & evs & H1 & S & _ & _).
  fold s in S. exists order. split; [exact H1|]. set (a := arun order (astart m scripts)) in *.
  assert (AO : forall i md, nth_error ms i = Some md -> md = Out).
  { intros i md Hm. destruct S as (_ & _ & _ & _ & _ & _ & L1 & L2 & F).
    assert (L : (i < length ms)%nat) by (apply nth_error_Some; congruence).
    destruct (nth_error (sh_threads s) i) as [[p o]|] eqn:Hc; [|apply nth_error_None in Hc; lia].
    destruct (nth_error (snd a) i) as [x|] eqn:Hx; [|apply nth_error_None in Hx; lia].
    destruct (F i md _ _ Hm Hc Hx) as (W & _). eapply between_out; [exact W|]. eapply B, Hc. }
  assert (S' := S). destruct S' as (_ & _ & _ & W & _ & T & L1 & L2 & F).
  assert (Wf : sh_writer s = false).
  { destruct (sh_writer s); [|reflexivity]. exfalso. unfold writers_of in W.
    destruct (filter is_w ms) as [|md l] eqn:Ef; [discriminate W|].
    assert (Hin : In md (filter is_w ms)) by (rewrite Ef; left; reflexivity). apply filter_In in Hin. destruct Hin as [Hin Hw].
    apply In_nth_error in Hin. destruct Hin as [i Hi]. rewrite (AO i md Hi) in Hw. discriminate. }
  rewrite (T Wf). rewrite (surjective_pairing a) at 2. f_equal.
  apply nth_ext_all. intros i. destruct (nth_error (sh_threads s) i) as [[p o]|] eqn:Hc.
  - destruct (sim_threads _ _ _ _ _ _ S Hc) as (md & [q oa] & Hm & Hx). rewrite Hx.
    destruct (F i md _ _ Hm Hc Hx) as (_ & _ & o2 & Ho & K). rewrite (AO i md Hm) in K. cbn [fst snd] in *.
    specialize (K (sh_tab s)). rewrite between_go in K by (eapply B, Hc). injection K as <- <-.
    rewrite app_nil_r in Ho. rewrite Ho. reflexivity.
  - apply nth_error_None in Hc. symmetry. apply nth_error_None. lia.
Qed.

(** ** Nobody waits for ever *)
Lemma wb_in_acts m p : wb m p -> m <> Out -> ~ ended p /\ ~ asks_lock p.
Proof.
  intros W N. inversion W; subst; try congruence; (split; [intros [?|?]; discriminate|intros []]).
Qed.
Lemma shared_no_deadlock m scripts sched i p o : callables scripts -> let s := run sched (start m scripts) in
  nth_error (sh_threads s) i = Some (p, o) -> ~ ended p ->
  exists j q oj, nth_error (sh_threads s) j = Some (q, oj) /\ ~ ended q /\ (lock_free s \/ ~ asks_lock q).
Proof.
  intros C s Hc NE. destruct (shared_run m scripts sched C) as (order & ms & evs & _ & S & _ & _).
  fold s in S. set (a := arun order (astart m scripts)) in *.
  assert (S' := S). destruct S' as (_ & _ & R & W & _ & _ & L1 & L2 & F).
  assert (D : forall md, md <> Out -> In md ms -> exists j q oj, nth_error (sh_threads s) j = Some (q, oj) /\ ~ ended q /\ ~ asks_lock q).
  { intros md N Hin. apply In_nth_error in Hin. destruct Hin as [j Hm].
    assert (L : (j < length ms)%nat) by (apply nth_error_Some; congruence).
    destruct (nth_error (sh_threads s) j) as [[q oj]|] eqn:Hj; [|apply nth_error_None in Hj; lia].
    destruct (nth_error (snd a) j) as [x|] eqn:Hx; [|apply nth_error_None in Hx; lia].
    destruct (F j md _ _ Hm Hj Hx) as (B & _). destruct (wb_in_acts _ _ B N). exists j, q, oj. auto. }
  unfold readers_of in R. unfold writers_of in W.
  destruct (filter is_r ms) as [|md l] eqn:Er.
  - destruct (filter is_w ms) as [|md l] eqn:Ew.
    + exists i, p, o. split; [exact Hc|]. split; [exact NE|]. left. split; [rewrite R; reflexivity|].
      destruct (sh_writer s); [discriminate W|reflexivity].
    + assert (Hin : In md (filter is_w ms)) by (rewrite Ew; left; reflexivity). apply filter_In in Hin. destruct Hin as [Hin Hw].
      destruct (D md ltac:(intros ->; discriminate) Hin) as (j & q & oj & H1 & H2 & H3). exists j, q, oj. auto.
  - assert (Hin : In md (filter is_r ms)) by (rewrite Er; left; reflexivity). apply filter_In in Hin. destruct Hin as [Hin Hw].
    destruct (D md ltac:(intros ->; discriminate) Hin) as (j & q & oj & H1 & H2 & H3). exists j, q, oj. auto.
Qed.

(** ** Every run comes to its end *)
Inductive child : prog -> prog -> Prop :=
| ch_panicw : child PPanic PPanicW
| ch_emit a k : child k (PEmit a k)
| ch_acqr k : child k (PAcqR k)
| ch_acqr_p k : child PPanic (PAcqR k)
| ch_relr k : child k (PRelR k)
| ch_acqw k : child k (PAcqW k)
| ch_acqw_p k : child PPanic (PAcqW k)
| ch_relw k : child k (PRelW k)
| ch_look k t : child (k t) (PLook k)
| ch_mod m k : child k (PMod m k).
Lemma acc_panic : Acc child PPanic.
Proof. constructor. intros q H. inversion H. Qed.
Lemma child_wf : well_founded child.
Proof.
  intros p. induction p as [| | | |a k IH|k IH|k IH|k IH|k IH|k IH|m k IH]; constructor; intros q H; inversion H; subst; auto using acc_panic.
Qed.

Definition lchild (l' l : list prog) : Prop := exists i p q, nth_error l i = Some p /\ child q p /\ l' = set_nth i q l.
Lemma lchild_cons p : forall l, Acc lchild l -> Acc lchild (p :: l).
Proof.
  induction (child_wf p) as [p _ IHp]. intros l A. induction A as [l Al IHl].
  constructor. intros l' (i & x & q & Hn & Hc & ->). destruct i as [|i].
  - cbn in Hn. injection Hn as ->. rewrite set_nth_cons_0. apply IHp; [exact Hc|]. constructor. exact Al.
  - rewrite set_nth_cons_S. apply IHl. exists i, x, q. auto.
Qed.
Lemma lchild_wf l : Acc lchild l.
Proof.
  induction l as [|p l IH]; [|apply lchild_cons, IH].
  constructor. intros l' (i & p & q & H & _). destruct i; discriminate.
Qed.
Lemma step_child s i p o : nth_error (sh_threads s) i = Some (p, o) -> ~ ended p -> ~ crashed p -> ~ waits s p ->
  lchild (map fst (sh_threads (step i s))) (map fst (sh_threads s)).
Proof.
  intros H NE NC NW. assert (Hp : nth_error (map fst (sh_threads s)) i = Some p) by (rewrite nth_error_map, H; reflexivity).
  assert (K : forall q o' tab r w po, child q p ->
    lchild (map fst (sh_threads (mkSys tab r w po (set_thread s i (q, o'))))) (map fst (sh_threads s))).
  { intros q o' tab r w po C. cbn [sh_threads]. unfold set_thread. rewrite set_nth_map. exists i, p, q. auto. }
  unfold step. rewrite H. destruct p; try (apply K; constructor).
  - elim NE. left. reflexivity.
  - elim NC. left. reflexivity.
  - elim NE. right. reflexivity.
  - cbn [waits] in NW. destruct (sh_writer s); [elim NW; reflexivity|]. destruct (sh_poison s); apply K; constructor.
  - cbn [waits] in NW. destruct (sh_writer s); [elim NW; left; reflexivity|]. cbn [orb].
    destruct (N.eqb_spec (sh_readers s) 0) as [R|R]; [|elim NW; right; exact R]. cbn [negb].
    destruct (sh_poison s); apply K; constructor.
Qed.
Lemma progress_wf : forall s, Acc progress s.
Proof.
  assert (G : forall l, Acc lchild l -> forall s, map fst (sh_threads s) = l -> Acc progress s).
  { induction 1 as [l _ IH]. intros s E. constructor. intros s' (i & p & o & H & NE & NC & NW & ->).
    eapply IH; [|reflexivity]. rewrite <- E. eapply step_child; eassumption. }
  intros s. eapply G; [apply lchild_wf|reflexivity].
Qed.

Lemma waits_asks s p : waits s p -> asks_lock p.
Proof. destruct p; intros H; try contradiction; exact Logic.I. Qed.
Lemma free_not_waits s p : lock_free s -> ~ waits s p.
Proof.
  intros [R W]. destruct p; cbn [waits]; intros H; try contradiction; [congruence|]. destruct H as [H|H]; [congruence|contradiction].
Qed.
Lemma ended_dec p : ended p \/ ~ ended p.
Proof. destruct p; try (right; intros [?|?]; discriminate); left; [left|right]; reflexivity. Qed.
Lemma run_app a b s : run (a ++ b) s = run b (run a s).
Proof. apply fold_left_app. Qed.

Lemma shared_finish m scripts sched : callables scripts -> exists rest, forall i p o,
  nth_error (sh_threads (run (sched ++ rest) (start m scripts))) i = Some (p, o) -> ended p.
Proof.
  intros C.
  assert (G : forall s, Acc progress s -> forall sched, s = run sched (start m scripts) -> exists rest, forall i p o,
    nth_error (sh_threads (run (sched ++ rest) (start m scripts))) i = Some (p, o) -> ended p).
  { induction 1 as [s _ IH]. intros sc E.
    assert (D : (exists i p o, nth_error (sh_threads s) i = Some (p, o) /\ ~ ended p) \/
                forall i p o, nth_error (sh_threads s) i = Some (p, o) -> ended p).
    { clear. induction (sh_threads s) as [|[p o] l IHl].
      - right. intros i p o H. destruct i; discriminate.
      - destruct (ended_dec p) as [Ep|Ep]; [|left; exists 0%nat, p, o; auto].
        destruct IHl as [(i & q & oq & H & N)|H]; [left; exists (S i), q, oq; auto|].
        right. intros [|i] q oq Hn; [cbn in Hn; injection Hn as <- <-; exact Ep|exact (H i q oq Hn)]. }
    destruct D as [(i & p & o & H & N)|D].
    - rewrite E in H. destruct (shared_no_deadlock m scripts sc i p o C H N) as (j & q & oj & Hj & Nj & K).
      destruct (IH (step j s)) with (sched := sc ++ [j]) as (rest & R).
      + exists j, q, oj. rewrite E. split; [exact Hj|]. split; [exact Nj|].
        split; [destruct (shared_safe m scripts sc C) as (_ & X & _); exact (X j q oj Hj)|]. split; [|reflexivity].
        destruct K as [K|K]; [apply free_not_waits, K|]. intros W. apply K. eapply waits_asks, W.
      + rewrite run_app, <- E. reflexivity.
      + exists (j :: rest). rewrite <- app_assoc in R. exact R.
    - exists []. rewrite app_nil_r, <- E. exact D. }
  eapply G; [apply progress_wf|reflexivity].
Qed.
