(** Proofs about streams that are sent on in any order (C140). *)
From Coq Require Import Ascii String NArith ZArith Lia Bool List ZifyBool ZifyNat ZifyN.
From Verif Require Import Base P_Base M_Header M_Url M_Http1 S_Http1 S_Http1Api M_Hpack S_Hpack S_HpackApi P_HpackSync S_Near P_Near M_Frame M_H2 S_H2Api S_Session P_Session S_Packets P_Packets S_Net P_Net S_Mux.
Import ListNotations.
Local Open Scope N_scope.

Lemma schedule_items ps l (P : item -> Prop) : schedule ps l -> Forall (Forall P) ps -> Forall P l.
Proof.
  induction 1 as [ps D|a i p b l H IH]; intros F; [constructor|]. apply Forall_app in F as [Fa F]. inversion F as [|? ? Fp Fb]; subst. inversion Fp as [|? ? Hi Hp]; subst.
  constructor; [exact Hi|]. apply IH. apply Forall_app. split; [exact Fa|]. constructor; assumption.
Qed.
Lemma schedule_streams ps l : schedule ps l -> forall ids, NoDup ids -> Forall2 (fun id p => Forall (fun i => item_stream i = id) p) ids ps ->
  Forall2 (fun id p => filter (fun i => item_stream i =? id) l = p) ids ps.
Proof.
  induction 1 as [ps D|a i p b l H IH]; intros ids ND F.
  - clear ND. induction F as [|id p ids ps _ F IH]; constructor; inversion D; subst; [reflexivity|auto].
  - apply Forall2_app_inv_r in F as (ia & ir & Fa & Fr & ->). inversion Fr as [|id ? ib ? Fp Fb]; subst. inversion Fp as [|? ? Hi Hp]; subst.
    assert (G : Forall2 (fun id p => Forall (fun i => item_stream i = id) p) (ia ++ item_stream i :: ib) (a ++ p :: b)) by (apply Forall2_app; [exact Fa|constructor; assumption]).
    specialize (IH _ ND G). apply Forall2_app_inv_l in IH as (a' & r' & Ga & Gr & E).
    assert (La : length a' = length a).
    { clear - Ga Fa. revert a' Ga. induction Fa as [|x y xs ys _ _ IH]; intros a' G; inversion G; subst; [reflexivity|cbn; f_equal; auto]. }
    assert (a' = a /\ r' = p :: b) as [-> ->].
    { clear - La E. revert a La E. induction a' as [|x a' IH]; intros [|y a] L E; try discriminate; cbn in E; [auto|]. injection E as -> E. cbn in L. destruct (IH a) as [-> ->]; [lia|exact E|auto]. }
    inversion Gr as [|? ? ? ? Ep Gb]; subst. apply NoDup_remove in ND as [_ NI].
    assert (Other : forall xs ys, (forall x, In x xs -> x <> item_stream i) -> Forall2 (fun id p => filter (fun i => item_stream i =? id) l = p) xs ys ->
      Forall2 (fun id p => filter (fun i => item_stream i =? id) (i :: l) = p) xs ys).
    { intros xs ys NE K. induction K as [|x y xs ys E1 K IHK]; constructor; [|apply IHK; intros z Z; apply NE; right; exact Z].
      cbn [filter]. destruct (N.eqb_spec (item_stream i) x) as [Q|_]; [exfalso; apply (NE x); [left; reflexivity|congruence]|exact E1]. }
    apply Forall2_app; [apply Other; [|exact Ga]|constructor; [|apply Other; [|exact Gb]]].
    + intros x X ->. apply NI, in_or_app. left. exact X.
    + cbn [filter]. rewrite N.eqb_refl. reflexivity.
    + intros x X ->. apply NI, in_or_app. right. exact X.
Qed.
Lemma seen_stream i fs : item_seen i fs -> Forall (fun f => frame_stream_id f = item_stream i) fs.
Proof.
  intros H. inversion H; subst; cbn [item_stream]; try (constructor; [reflexivity|constructor]). apply Forall_app. split; [|constructor; [reflexivity|constructor]].
  apply Forall_forall. intros f F. apply in_map_iff in F as (c & <- & _). reflexivity.
Qed.
Lemma filter_all {X} (f : X -> bool) l : Forall (fun x => f x = true) l -> filter f l = l.
Proof. induction 1 as [|x l E _ IH]; [reflexivity|]. cbn [filter]. rewrite E, IH. reflexivity. Qed.
Lemma filter_no {X} (f : X -> bool) l : Forall (fun x => f x = false) l -> filter f l = [].
Proof. induction 1 as [|x l E _ IH]; [reflexivity|]. cbn [filter]. rewrite E, IH. reflexivity. Qed.
Lemma seen_on id l got : Forall2 item_seen l got -> exists seen, Forall2 item_seen (filter (fun i => item_stream i =? id) l) seen /\ on_stream id (concat got) = concat seen.
Proof.
  induction 1 as [|i fs l got S H (seen & V & E)]; [exists []; split; constructor|]. cbn [filter concat]. pose proof (seen_stream i fs S) as K. unfold on_stream in *. rewrite filter_app.
  destruct (N.eqb_spec (item_stream i) id) as [Q|Q].
  - exists (fs :: seen). split; [constructor; assumption|]. cbn [concat]. rewrite E. f_equal. apply filter_all. eapply Forall_impl; [|exact K]. intros f F. cbv beta in *. lia.
  - exists seen. split; [exact V|]. rewrite filter_no; [exact E|]. eapply Forall_impl; [|exact K]. intros f F. cbv beta in *. lia.
Qed.
Lemma octets_on id fs : stream_octets id fs = stream_octets id (on_stream id fs).
Proof.
  induction fs as [|f fs IH]; [reflexivity|]. unfold on_stream in *. cbn [filter]. destruct (frame_stream_id f =? id) eqn:E.
  - destruct f; cbn [stream_octets]; rewrite <- ?IH; reflexivity.
  - destruct f; cbn [stream_octets frame_stream_id] in *; rewrite ?E; exact IH.
Qed.
Lemma ended_on id fs : stream_ended id fs = stream_ended id (on_stream id fs).
Proof.
  unfold stream_ended, on_stream. induction fs as [|f fs IH]; [reflexivity|]. cbn [filter existsb]. destruct (frame_stream_id f =? id) eqn:E; cbn [existsb]; rewrite ?E, IH; reflexivity.
Qed.
Lemma fit_connection max L k m l : Forall (item_fit max L k) l -> m < 66 * k -> connection (hi_with_size m) (hi_with_size m) (concat (map item_fields l) ++ []).
Proof.
  intros F M. rewrite app_nil_r.
  assert (Q : Forall (fun f => sendable f /\ Forall h2_char (fst f) /\ k <= size_of f) (concat (map item_fields l))).
  { induction F as [|i l [_ Hi] F IH]; [constructor|]. cbn [map concat]. apply Forall_app. auto. }
  assert (Q1 : Forall sendable (concat (map item_fields l))) by (eapply Forall_impl; [|exact Q]; intros f (A & _); exact A).
  assert (Q2 : h2_names (concat (map item_fields l))) by (eapply Forall_impl; [|exact Q]; intros f (_ & A & _); exact A).
  assert (Q3 : Forall (fun f => k <= size_of f) (concat (map item_fields l))) by (eapply Forall_impl; [|exact Q]; intros f (_ & _ & A); exact A).
  exists m, [], []. cbn [exchange sent concat app]. split; [reflexivity|]. split; [exact Q1|]. split; [exact Q2|].
  apply (sized_near m _ k); cbn [sent concat]; rewrite ?app_nil_r; try assumption; [apply h2_pool; assumption|constructor].
Qed.
