(** Lemmas on HTTP/2 connections through intermediaries (C129). *)
From Coq Require Import Ascii String NArith ZArith Lia Bool List.
From Verif Require Import Base P_Base S_Utf8 M_Std M_Helper M_Header M_Url M_Http1 M_Hpack M_Frame M_H2 S_Http1 S_Http1Api S_Map S_Hex S_Url S_Hpack S_HpackApi
  S_Frame S_H2Api S_Session P_Session S_Hops.
Import ListNotations.
Local Open Scope N_scope.

(** An item as it is sent on after it was seen: itself, or the data in pieces. *)
Lemma data_items id fl cs : is_end_stream fl = false -> items_of (map (fun c => FData (mkData id c fl)) cs) = map (fun c => IData id c false) cs.
Proof. intros E. unfold items_of. induction cs as [|c cs IH]; [reflexivity|]. cbn. cbn in IH. rewrite IH, E. reflexivity. Qed.
Lemma items_app a b : items_of (a ++ b) = items_of a ++ items_of b.
Proof. unfold items_of. rewrite map_app. apply concat_app. Qed.
Lemma items_seen max L i fs : item_legal max L i -> item_seen i fs ->
  Forall (item_legal max L) (items_of fs) /\ concat (map item_fields (items_of fs)) = item_fields i /\
  forall got, Forall2 item_seen (items_of fs) got -> item_seen i (concat got).
Proof.
  intros G V.
  assert (ONE : items_of fs = [i] -> Forall (item_legal max L) (items_of fs) /\ concat (map item_fields (items_of fs)) = item_fields i /\
    forall got, Forall2 item_seen (items_of fs) got -> item_seen i (concat got)).
  { intros ->. split; [auto|]. split; [cbn; apply app_nil_r|]. intros got H. inversion H as [|? x ? y H1 H2]; subst. inversion H2; subst.
    cbn. rewrite app_nil_r. exact H1. }
  destruct V as [s| |p|r|w|g|id b es cs last E|id m a s p fs es|id c fs es];
    try (apply ONE; unfold items_of; cbn; reflexivity).
  - apply ONE. destruct G as (_ & _ & Z & _). unfold items_of. cbn. rewrite Z. reflexivity.
  - assert (I : items_of (map (fun c => FData (mkData id c (flags_of false false false false))) cs ++ [FData (mkData id last (flags_of es false false false))])
      = map (fun c => IData id c false) cs ++ [IData id last es]).
    { rewrite items_app, data_items by reflexivity. f_equal. unfold items_of. cbn. rewrite es_flags. reflexivity. }
    rewrite I. destruct G as (G1 & G2 & G3). split; [|split].
    + apply Forall_app. split; [|apply Forall_cons; [|apply Forall_nil]].
      * apply Forall_map, Forall_forall. intros c _. split; [exact G1|]. split; [exact G2|exact G3].
      * split; [exact G1|]. split; [exact G2|exact G3].
    + rewrite map_app, concat_app. cbn. rewrite app_nil_r. clear. induction cs as [|c cs IH]; [reflexivity|exact IH].
    + intros got H. apply Forall2_app_inv_l in H as (g1 & g2 & H1 & H2 & ->).
      assert (P : exists ds, concat g1 = map (fun c => FData (mkData id c (flags_of false false false false))) ds /\ concat ds = concat cs).
      { clear - H1. revert g1 H1. induction cs as [|c cs IH]; intros g1 H1; inversion H1 as [|? x ? y X1 X2]; subst; [exists []; split; reflexivity|].
        destruct (IH _ X2) as (ds & D1 & D2). inversion X1 as [| | | | | |? ? ? ps last E| |]; subst. exists (ps ++ last :: ds). split.
        - cbn [concat]. rewrite D1, map_app, <- app_assoc. reflexivity.
        - cbn [concat]. rewrite concat_app. cbn [concat]. rewrite D2, <- app_assoc. reflexivity. }
      destruct P as (ds & D1 & D2). inversion H2 as [|? x ? y X1 X2]; subst. inversion X2; subst.
      inversion X1 as [| | | | | |? ? ? ps last' E| |]; subst. rewrite concat_app. cbn [concat]. rewrite app_nil_r, D1.
      set (F := fun c => FData (mkData id c (flags_of false false false false))). set (z := [FData _]).
      rewrite (app_assoc (map F ds) (map F ps) z), <- map_app. unfold F, z. apply se_data. rewrite concat_app, D2, <- app_assoc. reflexivity.
  - apply ONE. unfold items_of. cbn. rewrite es_flags. reflexivity.
  - apply ONE. unfold items_of. cbn. rewrite es_flags. reflexivity.
Qed.
Lemma all_seen max L l : forall got, Forall (item_legal max L) l -> Forall2 item_seen l got ->
  Forall (item_legal max L) (items_of (concat got)) /\ concat (map item_fields (items_of (concat got))) = concat (map item_fields l) /\
  forall gs, Forall2 item_seen (items_of (concat got)) gs -> exists gs', concat gs' = concat gs /\ Forall2 item_seen l gs'.
Proof.
  induction l as [|i l IH]; intros got G V; inversion V as [|? fs ? got' V1 V2]; subst.
  - split; [constructor|]. split; [reflexivity|]. intros gs H. exists []. inversion H. split; [reflexivity|constructor].
  - apply Forall_cons_iff in G as [G1 G2]. destruct (items_seen max L i fs G1 V1) as (A1 & A2 & A3). destruct (IH got' G2 V2) as (B1 & B2 & B3).
    cbn [concat]. rewrite items_app. split; [apply Forall_app; auto|]. split.
    + rewrite map_app, concat_app, A2, B2. reflexivity.
    + intros gs H. apply Forall2_app_inv_l in H as (g1 & g2 & H1 & H2 & ->). destruct (B3 g2 H2) as (gs' & C1 & C2).
      exists (concat g1 :: gs'). split; [cbn [concat]; rewrite C1, concat_app; reflexivity|]. constructor; [exact (A3 g1 H1)|exact C2].
Qed.
(** Reading to the end of the input is deterministic. *)
Lemma recv_nil t L : recv t L [] = (t, Err (EHttp2 Short)).
Proof. reflexivity. Qed.
Lemma reads_det L t l t1 fs1 r1 : reads L t l t1 fs1 r1 -> r1 = [] -> forall t2 fs2, reads L t l t2 fs2 [] -> t2 = t1 /\ fs2 = fs1.
Proof.
  induction 1 as [t l|t l t1 f l1 t3 fs r E R IH]; intros Z t2 fs2 K.
  - subst l. inversion K as [|? ? ? ? ? ? ? ? E' R']; subst; [auto|]. rewrite recv_nil in E'. discriminate.
  - inversion K as [|? ? t4 f4 l4 ? fs4 ? E' R']; subst.
    + rewrite recv_nil in E. discriminate.
    + rewrite E in E'. injection E' as -> -> ->. destruct (IH eq_refl _ _ R') as [-> ->]. auto.
Qed.
Lemma hop_crossed l h : hop_fit l h -> exists got, crossed h l (concat got) /\ Forall2 item_seen l got.
Proof.
  intros (M & G & C). rewrite <- (app_nil_r (concat _)) in C. destruct (session (hp_max h) (hp_limit h) l M G _ _ _ C) as (te & td & w & got & E & R & V & _).
  exists got. split; [|exact V]. exists te, td, w. split; [exact E|exact R].
Qed.
Lemma crossed_det h l f1 f2 : crossed h l f1 -> crossed h l f2 -> f1 = f2.
Proof.
  intros (te & td & w & E & R) (te' & td' & w' & E' & R'). rewrite E in E'. injection E' as -> ->. symmetry. exact (proj2 (reads_det _ _ _ _ _ _ R eq_refl _ _ R')).
Qed.
(** One relay. *)
Lemma relayed l got h : Forall2 item_seen l got -> hop_fit l h ->
  hop_fit (items_of (concat got)) h /\ exists got', crossed h (items_of (concat got)) (concat got') /\ Forall2 item_seen l got'.
Proof.
  intros V (M & G & C). destruct (all_seen _ _ _ _ G V) as (A1 & A2 & A3).
  assert (F : hop_fit (items_of (concat got)) h) by (split; [exact M|]; split; [exact A1|]; rewrite A2; exact C).
  split; [exact F|]. destruct (hop_crossed _ _ F) as (gs & X & Y). destruct (A3 gs Y) as (gs' & E & Z). exists gs'. rewrite E. auto.
Qed.
(** Any number of them: what is sent stays a series of items that are seen as [l]. *)
Lemma carried_from hs : forall l got, hs <> [] -> Forall2 item_seen l got -> Forall (hop_fit l) hs ->
  exists got', carried hs (items_of (concat got)) (concat got') /\ Forall2 item_seen l got'.
Proof.
  induction hs as [|h hs IH]; intros l got N V H; [contradiction|]. apply Forall_cons_iff in H as [H1 H2].
  destruct (relayed l got h V H1) as (_ & g1 & X & Y). destruct hs as [|h2 hs].
  - exists g1. split; [apply ca_last, X|exact Y].
  - destruct (IH l g1 ltac:(discriminate) Y H2) as (g2 & A & B). exists g2. split; [eapply ca_relay; eassumption|exact B].
Qed.
Lemma carried_all hs l : hs <> [] -> Forall (hop_fit l) hs -> exists got, carried hs l (concat got) /\ Forall2 item_seen l got.
Proof.
  intros N H. destruct hs as [|h hs]; [contradiction|]. apply Forall_cons_iff in H as [H1 H2].
  destruct (hop_crossed l h H1) as (g1 & X & Y). destruct hs as [|h2 hs].
  - exists g1. split; [apply ca_last, X|exact Y].
  - destruct (carried_from (h2 :: hs) l g1 ltac:(discriminate) Y H2) as (g2 & A & B). exists g2. split; [eapply ca_relay; eassumption|exact B].
Qed.
Lemma carried_det hs l f1 : carried hs l f1 -> forall f2, carried hs l f2 -> f1 = f2.
Proof.
  induction 1 as [h l fs X|h hs l mid fs X K IH]; intros f2 H2; inversion H2 as [h' l' fs' X'|h' hs' l' mid' fs' X' K']; subst.
  - eapply crossed_det; eassumption.
  - inversion K'.
  - inversion K.
  - assert (mid = mid') as <- by (eapply crossed_det; eassumption). apply IH, K'.
Qed.
Lemma carried_seen hs l fs : Forall (hop_fit l) hs -> carried hs l fs -> exists got, fs = concat got /\ Forall2 item_seen l got.
Proof.
  intros H K. assert (N : hs <> []) by (intros ->; inversion K). destruct (carried_all hs l N H) as (got & A & B).
  exists got. split; [exact (carried_det _ _ _ K _ A)|exact B].
Qed.
