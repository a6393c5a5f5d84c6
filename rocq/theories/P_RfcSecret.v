(** Proofs for C127. *)
From Coq Require Import Ascii String NArith ZArith Lia Bool List ZifyBool ZifyNat ZifyN.
From Verif Require Import Base P_Base S_Utf8 M_Hpack S_Huffman P_Huffman S_Hpack S_HpackApi P_Hpack P_HpackTable P_HpackCodec P_HpackSync S_WriteAll P_WriteAll S_RfcFrames P_RfcFrames S_RfcSecret.
Import ListNotations.
Local Open Scope N_scope.

(** A marked block is a block of the RFC. *)
Lemma marked_block max dyn b ms d : marked max dyn b ms d -> rfc_block max dyn b (map fst ms) d.
Proof. induction 1 as [dyn|dyn l f d1 ls ms d2 F _ IH]; cbn [map fst]; [constructor|]. econstructor; eassumption. Qed.
Lemma block_marked max dyn b fs d : rfc_block max dyn b fs d -> exists ms, marked max dyn b ms d /\ map fst ms = fs.
Proof.
  induction 1 as [dyn|dyn l f d1 ls fs d2 F _ (ms & M & E)]; [exists []; split; [constructor|reflexivity]|].
  exists ((f, never l) :: ms). split; [econstructor; eassumption|]. cbn [map fst]. f_equal. exact E.
Qed.
(** What is written is never marked. *)
Lemma field_open max dyn f l d1 : field_written max dyn f l d1 -> never l = false.
Proof.
  intros [i H|i lv _ H _|i v ln lv _ _ _ _ _|j e l' _ _ _ _ H|ln lv _ _ _ _]; try reflexivity.
  - pose proof (static_at_small _ _ _ H). cbn [never]. lia.
  - pose proof (static_at_small _ _ _ H). cbn [never]. lia.
  - apply int_min_repr in H. destruct (int_repr_head _ _ _ _ H) as (x & k & -> & X & _). cbn [never]. lia.
Qed.
Lemma block_open max dyn fs b d1 : fields_written max dyn fs b d1 -> Forall sendable fs ->
  forall max' peer ms peer', marked max' peer b ms peer' -> Forall (fun m => snd m = false) ms.
Proof.
  induction 1 as [dyn|dyn f fs l d1 ls d2 W B IH]; intros S max' peer ms peer' M.
  - inversion M as [? A1 A2 A3 A4|? m g e1 ms' gs' e2 G C A1 A2 A3 A4]; subst; [constructor|].
    exfalso. apply field_repr_pos in G. destruct m; [contradiction|discriminate].
  - destruct (field_meant max dyn f l d1 (Forall_inv S) W) as (g0 & dg & F & _).
    inversion M as [? A1 A2 A3 A4|? m g e1 ms' gs' e2 G C A1 A2 A3 A4]; subst.
    + exfalso. apply field_repr_pos in F. destruct l; [contradiction|discriminate].
    + destruct (field_cut _ _ _ _ _ _ _ _ _ _ _ _ G F A2) as [-> ->]. constructor; [exact (field_open _ _ _ _ _ W)|]. exact (IH (Forall_inv_tail S) _ _ _ _ C).
Qed.
Lemma sendable_octets fs : Forall sendable fs -> Forall field_octets fs.
Proof. apply Forall_impl. intros f (A & B & _). split; [eapply Forall_impl; [|exact A]; cbn; intros x; unfold byte_ok; lia|exact B]. Qed.
Lemma encode_runs max dyn fs : table_typed max dyn -> Forall sendable fs -> exists d b, encode_headers (table_of max dyn) fs = Ok (table_of max d, b) /\ fields_written max dyn fs b d.
Proof. intros T S. destruct (fields_run max fs (sendable_octets fs S) dyn T) as (b & d & E & W & _). exists d, b. auto. Qed.
Lemma list_on max dyn fs : table_typed max dyn -> Forall sendable fs -> exists t b, encode_headers (table_of max dyn) fs = Ok (t, b) /\
  (forall peer', (exists ms', marked max (map lower_field dyn) b ms' peer' /\ map fst ms' = map lower_field fs) <-> fields_sent_fine max dyn fs /\ peer' = map lower_field (hi_to_vec t)) /\
  (forall max' peer ms peer', marked max' peer b ms peer' -> Forall (fun m => snd m = false) ms).
Proof.
  intros T S. destruct (encode_runs max dyn fs T S) as (d & b & E & W). exists (table_of max d), b. split; [exact E|]. split; [|exact (block_open _ _ _ _ _ W S)].
  intros peer'. pose proof (block_meant max dyn fs b d W S peer') as M. change (hi_to_vec (table_of max d)) with d. rewrite <- M. split.
  - intros (ms' & K & L). rewrite <- L. apply marked_block, K.
  - intros K. apply block_marked, K.
Qed.
Lemma kept_on max dyn ms : table_typed max dyn -> Forall sendable (map fst ms) -> exists t b, encode_headers (table_of max dyn) (map fst ms) = Ok (t, b) /\
  ((exists ms' peer', marked max (map lower_field dyn) b ms' peer' /\ map fst ms' = map lower_field (map fst ms) /\ marks_kept ms ms') <->
   fields_sent_fine max dyn (map fst ms) /\ Forall (fun m => snd m = false) ms).
Proof.
  intros T S. destruct (list_on max dyn (map fst ms) T S) as (t & b & E & A & B). exists t, b. split; [exact E|]. split.
  - intros (ms' & peer' & M & F & K). split; [apply (A peer'); exists ms'; auto|]. apply B in M. clear -M K. induction K as [|m m' ms ms' K _ IH]; [constructor|].
    apply Forall_cons_iff in M as [M1 M2]. constructor; [|apply IH, M2]. destruct (snd m); [|reflexivity]. rewrite (K eq_refl) in M1. discriminate M1.
  - intros [F U]. destruct (proj2 (A (map lower_field (hi_to_vec t))) (conj F eq_refl)) as (ms' & M & L). exists ms', (map lower_field (hi_to_vec t)). split; [exact M|]. split; [exact L|].
    apply (f_equal (@length _)) in L. rewrite !map_length in L. clear -U L. revert ms' L. induction U as [|m ms U1 _ IH]; intros [|m' ms'] L; try discriminate L; constructor; [congruence|]. apply IH. injection L as L. exact L.
Qed.
(** Names that HTTP/2 allows. *)
Lemma names_fine max dyn fs : table_typed max dyn -> Forall sendable fs -> Forall (fun f => Forall h2_char (fst f)) (dyn ++ fs) -> (forall f, In f fs -> fst f <> str "accept-") ->
  fields_sent_fine max dyn fs.
Proof.
  intros T S H A. pose proof (sendable_octets fs S) as O. apply tokens_fine; [exact O|exact T| |].
  - intros f Hf. rewrite Forall_forall in H. unfold lower_name. rewrite h2_lower by (apply H, in_or_app; auto). apply A, Hf.
  - intros f g Hf Hg K. rewrite Forall_forall in H. pose proof (H f (in_or_app _ _ _ (or_intror Hf))) as Ff. pose proof (H g Hg) as Fg.
    unfold lower_name. rewrite !h2_lower by assumption. apply alike_iff in K; [| |].
    + apply clash_ascii in K; [|apply h2_ascii; assumption..|apply h2_clash_free; assumption]. rewrite !h2_lower in K by assumption. exact K.
    + destruct T as [_ TO]. apply in_app_or in Hg. rewrite Forall_forall in TO, O. destruct Hg as [Hg|Hg]; [apply TO, Hg|apply O, Hg].
    + rewrite Forall_forall in O. apply O, Hf.
Qed.
Lemma names_lower fs : Forall (fun f => Forall h2_char (fst f)) fs -> map lower_field fs = fs.
Proof.
  induction 1 as [|[n v] fs H _ IH]; [reflexivity|]. cbn [map]. rewrite IH. f_equal. unfold lower_field. cbn [fst snd] in *. f_equal. apply h2_lower, H.
Qed.
Lemma names_on max dyn fs : table_typed max dyn -> Forall sendable fs -> Forall (fun f => Forall h2_char (fst f)) (dyn ++ fs) ->
  exists t b, encode_headers (table_of max dyn) fs = Ok (t, b) /\
    ((exists ms' peer', marked max dyn b ms' peer' /\ map fst ms' = fs) <-> forall f, In f fs -> fst f <> str "accept-").
Proof.
  intros T S H. destruct (list_on max dyn fs T S) as (t & b & E & A & _). exists t, b. split; [exact E|]. pose proof H as H'. apply Forall_app in H' as [H1 H2].
  rewrite (names_lower dyn H1), (names_lower fs H2) in A. split.
  - intros (ms' & peer' & M & F) f I E'. destruct (proj1 (A peer')) as [Z _]; [exists ms'; auto|].
    assert (X : lower_name (fst f) <> str "accept-").
    { clear -Z I. induction Z as [|dyn f0 fs l d1 [A _] _ _ IH]; [destruct I|]. destruct I as [<-|I]; [exact A|apply IH, I]. }
    apply X. rewrite E'. reflexivity.
  - intros NA. destruct (proj2 (A (map lower_field (hi_to_vec t)))) as (ms' & M & F); [split; [apply names_fine; assumption|reflexivity]|]. eauto.
Qed.
