(** Lemmas for C31: fields that are near in the sender's table. *)
From Coq Require Import Ascii String NArith ZArith Lia Bool List ZifyBool ZifyNat ZifyN.
From Verif Require Import Base S_Utf8 P_Base M_Std M_Helper M_Header M_Huffman M_Hpack.
From Verif Require Import S_Http1 S_Map P_Map S_Huffman S_Hpack S_HpackApi P_Huffman P_Hpack P_HpackTable P_HpackCodec P_HpackSync S_Near.
Import ListNotations.
Local Open Scope N_scope.
Ltac Zify.zify_post_hook ::= Z.div_mod_to_equations.

(** ** Blocks *)


Definition after_block (t : hindex) (fs : list hfield) : hindex :=
  idx_of (hi_max t) (fold_left (after_field (hi_max t)) fs (hi_table t)).

Lemma sender_block pool fs : pool_ok pool -> incl fs pool -> forall t, idx_inv t -> incl (hi_table t) pool ->
  exists b, encode_headers t fs = Ok (after_block t fs, b) /\ idx_inv (after_block t fs) /\ incl (hi_table (after_block t fs)) pool.
Proof.
  intros P. induction fs as [|f fs IH]; intros F t I D.
  - destruct (inv_idx_of t I) as [Et Ts]. exists []. unfold after_block. cbn [fold_left encode_headers].
    split; [rewrite <- Et; reflexivity|]. split; [apply idx_of_inv, Ts|exact D].
  - assert (Hf : In f pool) by (apply F; left; reflexivity).
    assert (Sf : sendable f) by (destruct P as [S _]; rewrite Forall_forall in S; apply S, Hf).
    destruct (encode_field t f I Sf (pool_unconfused pool _ f P D Hf)) as (b & E & _).
    destruct (IH (fun x Hx => F x (or_intror Hx)) _ (after_field_inv t f I)) as (b2 & E2 & I2 & D2).
    { cbn [hi_table idx_of]. apply after_field_incl; assumption. }
    exists (b ++ b2). cbn [encode_headers]. rewrite E. cbn [bind]. rewrite E2. split; [reflexivity|]. split; assumption.
Qed.

Lemma near_block_sync pool fs : pool_ok pool -> incl fs pool -> forall te td, paired te td -> incl (hi_table te) pool ->
  near_block (hi_max te) (hi_table te) fs ->
  exists b, encode_headers te fs = Ok (after_block te fs, b) /\ paired (after_block te fs) (fst (decode_headers td b)) /\
    snd (decode_headers td b) = Ok (map lower_field fs) /\ incl (hi_table (after_block te fs)) pool.
Proof.
  intros P. induction fs as [|f fs IH]; intros F te td [I ->] D NB.
  - destruct (inv_idx_of te I) as [Et Ts]. exists []. unfold after_block. cbn [fold_left encode_headers].
    split; [rewrite <- Et; reflexivity|]. rewrite decode_headers_nil. cbn [fst snd map].
    split; [split; [apply idx_of_inv, Ts|reflexivity]|]. split; [reflexivity|exact D].
  - destruct NB as [NF NB]. assert (Hf : In f pool) by (apply F; left; reflexivity).
    assert (Sf : sendable f) by (destruct P as [S _]; rewrite Forall_forall in S; apply S, Hf).
    destruct (encode_field te f I Sf (pool_unconfused pool _ f P D Hf)) as (b & E & R & _). specialize (R NF).
    destruct (IH (fun x Hx => F x (or_intror Hx)) (idx_of (hi_max te) (after_field (hi_max te) (hi_table te) f))
      (idx_of (hi_max te) (map lower_field (after_field (hi_max te) (hi_table te) f)))) as (b2 & E2 & P2 & G2 & D2).
    { split; [apply after_field_inv, I|reflexivity]. }
    { cbn [hi_table idx_of]. apply after_field_incl; assumption. }
    { exact NB. }
    exists (b ++ b2). cbn [encode_headers]. rewrite E. cbn [bind]. rewrite E2. split; [reflexivity|].
    assert (ID : idx_inv (idx_of (hi_max te) (map lower_field (hi_table te)))).
    { apply idx_of_inv. rewrite total_lower. apply inv_idx_of, I. }
    destruct (decode_block_step (idx_of (hi_max te) (map lower_field (hi_table te))) b (lower_field f) _ b2 ID R) as [_ DE].
    rewrite DE. cbn [hi_max idx_of] in *.
    destruct (decode_headers _ b2) as [t2 r2]. cbn [fst snd] in *. rewrite G2. cbn [bind map].
    split; [exact P2|]. split; [reflexivity|exact D2].
Qed.

(** ** Histories *)
Definition pair_of (te : hindex) : N * list hfield := (hi_max te, hi_table te).

Lemma near_exchange pool evs : pool_ok pool -> incl (concat (sent evs)) pool ->
  forall te td, paired te td -> incl (hi_table te) pool -> near_from (pair_of te) evs ->
  exists te' td', exchange te td evs = Ok (te', td', map (map lower_field) (sent evs)) /\ paired te' td' /\
    pair_of te' = fold_left after_event evs (pair_of te) /\ incl (hi_table te') pool.
Proof.
  intros P. induction evs as [|[fs|m] evs IH]; intros F te td Pr D NF.
  - exists te, td. split; [reflexivity|]. split; [exact Pr|]. split; [reflexivity|exact D].
  - destruct NF as [NB NF]. cbn [sent concat] in F.
    destruct (near_block_sync pool fs P (fun x Hx => F x (in_or_app _ _ _ (or_introl Hx))) te td Pr D NB) as (b & E & P2 & G & D2).
    cbn [exchange sent map]. rewrite E. cbn [bind]. destruct (decode_headers td b) as [td2 r]. cbn [fst snd] in *. rewrite G. cbn [bind].
    destruct (IH (fun x Hx => F x (in_or_app _ _ _ (or_intror Hx))) _ _ P2 D2 NF) as (te3 & td3 & E3 & P3 & A3 & D3).
    rewrite E3. cbn [bind]. exists te3, td3. split; [reflexivity|]. split; [exact P3|]. split; [exact A3|exact D3].
  - destruct NF as [_ NF]. destruct Pr as [I ->].
    assert (ID : idx_inv (idx_of (hi_max te) (map lower_field (hi_table te)))).
    { apply idx_of_inv. rewrite total_lower. apply inv_idx_of, I. }
    cbn [exchange sent]. rewrite (set_max_spec te m I), (set_max_spec _ m ID). cbn [bind hi_max hi_table idx_of].
    destruct (IH F (idx_of m (newest m (hi_table te))) (idx_of m (newest m (map lower_field (hi_table te))))) as (te3 & td3 & E3 & P3 & A3 & D3).
    { split; [apply newest_inv|]. cbn [hi_max hi_table idx_of]. rewrite newest_lower. reflexivity. }
    { cbn [hi_table idx_of]. intros x Hx. apply newest_incl in Hx. apply D, Hx. }
    { exact NF. }
    exists te3, td3. split; [exact E3|]. split; [exact P3|]. split; [exact A3|exact D3].
Qed.

Lemma sender_events pool evs : pool_ok pool -> incl (concat (sent evs)) pool ->
  forall t, idx_inv t -> incl (hi_table t) pool ->
  exists t', sender t evs = Ok t' /\ pair_of t' = fold_left after_event evs (pair_of t).
Proof.
  intros P. induction evs as [|[fs|m] evs IH]; intros F t I D.
  - exists t. auto.
  - cbn [sent concat] in F. destruct (sender_block pool fs P (fun x Hx => F x (in_or_app _ _ _ (or_introl Hx))) t I D) as (b & E & I2 & D2).
    cbn [sender]. rewrite E. cbn [bind]. apply (IH (fun x Hx => F x (in_or_app _ _ _ (or_intror Hx))) _ I2 D2).
  - cbn [sender]. rewrite (set_max_spec t m I). cbn [bind].
    destruct (IH F (idx_of m (newest m (hi_table t))) (newest_inv m (hi_table t))) as (t' & E & A).
    { cbn [hi_table idx_of]. intros x Hx. apply newest_incl in Hx. apply D, Hx. }
    exists t'. split; [exact E|exact A].
Qed.

Lemma fresh_pair_of m : pair_of (hi_with_size m) = (m, []).
Proof. reflexivity. Qed.

Lemma sync_near m evs : pool_ok (concat (sent evs)) -> all_near m evs ->
  exists te td, exchange (hi_with_size m) (hi_with_size m) evs = Ok (te, td, map (map lower_field) (sent evs)) /\
    hi_table td = map lower_field (hi_table te) /\ hi_size td = hi_size te /\ hi_max td = hi_max te /\
    (hi_max te, hi_table te) = after_events m evs.
Proof.
  intros P NF.
  destruct (near_exchange _ evs P (incl_refl _) _ _ (fresh_pair m) ltac:(intros x []) NF) as (te & td & E & [I ->] & A & _).
  exists te. eexists. split; [exact E|]. split; [reflexivity|]. split; [|split; [reflexivity|exact A]].
  cbn [hi_size idx_of]. rewrite total_lower. symmetry. apply I.
Qed.

(** ** A far field is not received *)
Lemma decode_nonempty t b fs : idx_inv t -> b <> [] -> snd (decode_headers t b) = Ok fs -> fs <> [].
Proof.
  intros I. revert t b I fs. apply (decode_headers_ind (fun t b => forall fs, b <> [] -> snd (decode_headers t b) = Ok fs -> fs <> [])).
  - intros t I fs NE. contradiction.
  - intros t b t' f k I I' _ NE _ _ E _ fs _ H. rewrite (decode_headers_field _ _ _ _ _ I NE E) in H.
    destruct (decode_headers t' _) as [t2 r]. cbn [snd] in H. apply bind_ok in H. destruct H as (l & _ & H). injection H as <-. discriminate.
  - intros t b I NE R fs _ H. rewrite decode_headers_size in H by assumption. discriminate H.
  - intros t b e I NE E _ fs _ H. rewrite (decode_headers_err _ _ _ NE E) in H. discriminate H.
Qed.

Lemma far_octets j : (65 <= j)%nat -> exists x l, encode_indexed (N.of_nat j + 62) = 255 :: x :: l.
Proof.
  intros H. unfold encode_indexed, encode_integer. change (prefix_mask 7) with 127.
  destruct (N.ltb_spec (N.of_nat j + 62) 127) as [A|_]; [lia|]. change (N.lor (N.land 128 (255 - 127)) 127) with 255.
  pose proof (int_tail_fuel (N.of_nat j + 62 - 127)) as R. apply int_tail_ok in R. destruct R as [_ R].
  destruct (int_tail _ _) as [|x l]; [contradiction|]. exists x, l. reflexivity.
Qed.

Lemma far_not_received t j f : idx_inv t -> (65 <= j)%nat -> snd (decode_headers t (encode_indexed (N.of_nat j + 62))) <> Ok [f].
Proof.
  intros I H. destruct (far_octets j H) as (x & l & ->). intros E.
  assert (NE : 255 :: x :: l <> []) by discriminate.
  assert (D : decode_one t (255 :: x :: l) = ' (f, k) <- decode_indexed t 255 ;; Ok (t, Some f, k)) by reflexivity.
  unfold decode_indexed in D. destruct (get_from_table t (N.land 255 127)) as [g|e| |] eqn:G; cbn [bind] in D.
  - rewrite (decode_headers_field _ _ _ _ _ I NE D) in E. change (skipn (N.to_nat 1) (255 :: x :: l)) with (x :: l) in E.
    destruct (decode_headers t (x :: l)) as [t2 r] eqn:R. cbn [snd] in E. apply bind_ok in E. destruct E as (m & -> & E).
    injection E as _ ->. apply (decode_nonempty t (x :: l) [] I); [discriminate| |reflexivity]. rewrite R. reflexivity.
  - rewrite (decode_headers_err _ _ _ NE D) in E. discriminate E.
  - pose proof (decode_one_total t _ I NE) as T. rewrite D in T. inversion T.
  - pose proof (decode_one_total t _ I NE) as T. rewrite D in T. inversion T.
Qed.

Lemma encode_headers_snoc fs f : forall t, encode_headers t (fs ++ [f]) =
  ' (t1, b1) <- encode_headers t fs ;; ' (t2, b2) <- encode_header t1 f ;; Ok (t2, b1 ++ b2).
Proof.
  induction fs as [|g fs IH]; intros t; cbn [app encode_headers bind].
  - destruct (encode_header t f) as [[t2 b2]|e| |]; cbn [bind]; [rewrite app_nil_r|..]; reflexivity.
  - destruct (encode_header t g) as [[t1 b1]|e| |]; cbn [bind]; [|reflexivity..]. rewrite IH.
    destruct (encode_headers t1 fs) as [[t3 b3]|e| |]; cbn [bind]; [|reflexivity..].
    destruct (encode_header t3 f) as [[t2 b2]|e| |]; cbn [bind]; [rewrite app_assoc|..]; reflexivity.
Qed.

Lemma exchange_app a b : forall te td, exchange te td (a ++ b) =
  ' (te1, td1, g1) <- exchange te td a ;; ' (te2, td2, g2) <- exchange te1 td1 b ;; Ok (te2, td2, g1 ++ g2).
Proof.
  induction a as [|[fs|m] a IH]; intros te td; cbn [app exchange bind].
  - destruct (exchange te td b) as [[[te2 td2] g2]|e| |]; reflexivity.
  - destruct (encode_headers te fs) as [[te' x]|e| |]; cbn [bind]; [|reflexivity..].
    destruct (decode_headers td x) as [td' r]. destruct r as [got|e| |]; cbn [bind]; [|reflexivity..]. rewrite IH.
    destruct (exchange te' td' a) as [[[te1 td1] g1]|e| |]; cbn [bind]; [|reflexivity..].
    destruct (exchange te1 td1 b) as [[[te2 td2] g2]|e| |]; reflexivity.
  - destruct (set_max_table_size te m) as [te'|e| |]; cbn [bind]; [|reflexivity..].
    destruct (set_max_table_size td m) as [td'|e| |]; cbn [bind]; [|reflexivity..]. apply IH.
Qed.

Lemma sent_app a b : sent (a ++ b) = sent a ++ sent b.
Proof. induction a as [|[fs|m] a IH]; cbn [app sent]; [reflexivity|rewrite IH; reflexivity|exact IH]. Qed.

Lemma near_from_app a b : forall s, near_from s (a ++ b) <-> near_from s a /\ near_from (fold_left after_event a s) b.
Proof.
  induction a as [|e a IH]; intros s; cbn [app near_from fold_left]; [tauto|]. rewrite IH. tauto.
Qed.
Lemma near_block_app a b max : forall d, near_block max d (a ++ b) <-> near_block max d a /\ near_block max (fold_left (after_field max) a d) b.
Proof.
  induction a as [|g a IH]; intros d; cbn [app near_block fold_left]; [tauto|]. rewrite IH. tauto.
Qed.

Lemma near_dec d f : near d f \/ ~ near d f.
Proof.
  destruct (static_name f) eqn:S; [left; left; exact S|].
  destruct (existsb (fun e => same_field e f) (firstn 65 d)) eqn:A.
  - left. right. right. apply existsb_exists in A. exact A.
  - destruct (existsb (fun e => same_field e f) d) eqn:B.
    + right. apply existsb_exists in B. destruct B as (e & He & Be). intros [C|[C|(e' & He' & C)]]; [congruence|rewrite (C e He) in Be; discriminate Be|].
      assert (X : existsb (fun e => same_field e f) (firstn 65 d) = true) by (apply existsb_exists; exists e'; auto). congruence.
    + left. right. left. intros e He. apply not_true_is_false. intros X.
      assert (Y : existsb (fun e => same_field e f) d = true) by (apply existsb_exists; exists e; auto). congruence.
Qed.

Lemma near_exact m evs fs f : pool_ok (concat (sent evs) ++ fs ++ [f]) -> all_near m (evs ++ [EvBlock fs]) ->
  ((exists te td, exchange (hi_with_size m) (hi_with_size m) (evs ++ [EvBlock (fs ++ [f])]) =
      Ok (te, td, map (map lower_field) (sent evs ++ [fs ++ [f]]))) <->
   near (snd (after_events m (evs ++ [EvBlock fs]))) f).
Proof.
  intros P NA. unfold all_near in NA. rewrite near_from_app in NA. destruct NA as [N1 N2].
  set (pool := concat (sent evs) ++ fs ++ [f]) in *.
  assert (F1 : incl (concat (sent evs)) pool) by (intros x Hx; apply in_or_app; left; exact Hx).
  assert (F2 : incl fs pool) by (intros x Hx; apply in_or_app; right; apply in_or_app; left; exact Hx).
  assert (F3 : In f pool) by (apply in_or_app; right; apply in_or_app; right; left; reflexivity).
  assert (Sf : sendable f) by (destruct P as [S _]; rewrite Forall_forall in S; apply S, F3).
  destruct (near_exchange pool evs P F1 _ _ (fresh_pair m) ltac:(intros x []) N1) as (te & td & E & Pr & A & D).
  cbn [near_from] in N2. destruct N2 as [N2 _]. rewrite fresh_pair_of in A. rewrite <- A in N2. cbn [pair_of fst snd] in N2.
  destruct (near_block_sync pool fs P F2 te td Pr D N2) as (b & Eb & Pb & Gb & Db).
  destruct (encode_field (after_block te fs) f (proj1 Pb) Sf (pool_unconfused pool _ f P Db F3)) as (bf & Ef & Nf & Ff).
  assert (T : snd (after_events m (evs ++ [EvBlock fs])) = hi_table (after_block te fs)).
  { unfold after_events. rewrite fold_left_app, <- A. reflexivity. }
  rewrite T. rewrite exchange_app, E. cbn [bind exchange]. rewrite encode_headers_snoc, Eb. cbn [bind]. rewrite Ef. cbn [bind].
  destruct (decode_headers td b) as [td1 r] eqn:Db1. cbn [fst snd] in *. subst r.
  assert (It : idx_inv td).
  { destruct Pr as [I ->]. apply idx_of_inv. rewrite total_lower. apply inv_idx_of, I. }
  destruct (decode_headers_app td b bf It _ _ Db1) as (I1 & _ & DA). rewrite DA. split.
  - intros (te2 & td2 & H). destruct (near_dec (hi_table (after_block te fs)) f) as [Y|NN]; [exact Y|exfalso].
    destruct (Ff NN) as (j & -> & Hj & _). apply (far_not_received td1 j (lower_field f) I1 ltac:(lia)).
    destruct (decode_headers td1 _) as [t3 r3]. cbn [snd]. apply bind_ok in H. destruct H as (l & Hr & H).
    destruct r3 as [l3|e| |]; cbn [bind] in Hr; try discriminate Hr. injection Hr as <-. cbn [bind] in H.
    injection H as _ _ H. rewrite map_app in H. apply app_inv_head in H. cbn [map] in H. rewrite map_app in H.
    injection H as H. apply app_inv_head in H. rewrite H. reflexivity.
  - intros NR. specialize (Nf NR). destruct Pb as [Ib Etd].
    destruct (decode_block_step td1 bf (lower_field f) (map lower_field (after_field (hi_max (after_block te fs)) (hi_table (after_block te fs)) f)) [] I1) as [_ DE].
    { subst td1. exact Nf. }
    rewrite app_nil_r in DE. rewrite DE, decode_headers_nil. cbn [bind]. eexists. eexists.
    rewrite map_app. cbn [map]. rewrite map_app. reflexivity.
Qed.

(** ** Fields that are either static entries or have names of their own *)
Definition own_or_static (f : hfield) : Prop := static_entry f = true \/ static_name f = false.

Lemma nodup_prefix {A} (l r : list A) : NoDup (l ++ r) -> NoDup l.
Proof.
  induction l as [|x l IH]; intros H; [constructor|]. inversion H as [|? ? H1 H2]; subst. constructor; [|apply IH, H2].
  intros X. apply H1. apply in_or_app. left. exact X.
Qed.

Definition small_table (pool d : list hfield) : Prop :=
  NoDup (map lower_field d) /\ incl (map lower_field d) (map lower_field pool).

Lemma small_newest pool m d : small_table pool d -> small_table pool (newest m d).
Proof.
  intros [ND IN]. destruct (newest_longest m d) as (rest & E & _). split.
  - rewrite E, map_app in ND. apply nodup_prefix in ND. exact ND.
  - intros x Hx. apply IN. apply in_map_iff in Hx. destruct Hx as (y & <- & Hy). apply List.in_map. rewrite E. apply in_or_app. left. exact Hy.
Qed.
Lemma small_near pool d f : (length pool <= 65)%nat -> small_table pool d -> near d f.
Proof.
  intros L [ND IN]. pose proof (NoDup_incl_length ND IN) as K. rewrite !map_length in K. apply short_near. lia.
Qed.
Lemma small_after pool max d f : own_or_static f -> (static_entry f = false -> In (lower_field f) (map lower_field pool)) ->
  small_table pool d -> small_table pool (after_field max d f).
Proof.
  intros O IP ST. unfold after_field. destruct (static_entry f) eqn:SE; [exact ST|].
  destruct O as [O|O]; [congruence|]. rewrite O. cbn [negb andb].
  destruct (existsb (fun e => same_field e f) d) eqn:E; [exact ST|]. apply small_newest. destruct ST as [ND IN]. split.
  - cbn [map]. constructor; [|exact ND]. intros X. apply in_map_iff in X. destruct X as (e & He & X).
    assert (Y : existsb (fun e => same_field e f) d = true) by (apply existsb_exists; exists e; split; [exact X|apply same_field_iff, He]). congruence.
  - cbn [map]. intros x [<-|Hx]; [apply IP; reflexivity|apply IN, Hx].
Qed.

Lemma small_block pool max fs : (length pool <= 65)%nat -> Forall own_or_static fs ->
  (forall f, In f fs -> static_entry f = false -> In (lower_field f) (map lower_field pool)) ->
  forall d, small_table pool d -> near_block max d fs /\ small_table pool (fold_left (after_field max) fs d).
Proof.
  intros L. induction fs as [|f fs IH]; intros O IP d ST; [split; [exact Logic.I|exact ST]|].
  inversion O as [|? ? Of Ofs]; subst. cbn [near_block fold_left].
  destruct (IH Ofs (fun g Hg => IP g (or_intror Hg)) (after_field max d f)) as [A B].
  { apply small_after; [exact Of|apply IP; left; reflexivity|exact ST]. }
  split; [split; [apply (small_near pool); assumption|exact A]|exact B].
Qed.

Lemma small_events pool evs : (length pool <= 65)%nat -> Forall own_or_static (concat (sent evs)) ->
  (forall f, In f (concat (sent evs)) -> static_entry f = false -> In (lower_field f) (map lower_field pool)) ->
  forall s, small_table pool (snd s) -> near_from s evs.
Proof.
  intros L. induction evs as [|[fs|m] evs IH]; intros O IP s ST; cbn [near_from sent concat] in *; [exact Logic.I|..].
  - apply Forall_app in O. destruct O as [O1 O2].
    destruct (small_block pool (fst s) fs L O1 (fun g Hg => IP g (in_or_app _ _ _ (or_introl Hg))) (snd s) ST) as [A B].
    split; [exact A|]. apply (IH O2 (fun g Hg => IP g (in_or_app _ _ _ (or_intror Hg)))). exact B.
  - split; [exact Logic.I|]. apply (IH O IP). cbn [after_event snd]. apply small_newest, ST.
Qed.

(** ** The conditions on numbers and sizes imply the one on places *)
Lemma few_near m evs : pool_ok (concat (sent evs)) -> (length (concat (sent evs)) <= 66)%nat -> all_near m evs.
Proof.
  intros P L. apply (run_near _ (by_count_ok _ P)). split; [exact L|]. split; [intros g []|apply incl_refl].
Qed.
Lemma sized_near m evs k : pool_ok (concat (sent evs)) -> Forall (fun f => k <= size_of f) (concat (sent evs)) ->
  m < 66 * k -> Forall (fun m => m < 66 * k) (maxima evs) -> all_near m evs.
Proof.
  intros P K M Ms. apply (run_near _ (by_size_ok _ k P K)). split; [exact M|]. split; [exact Ms|].
  split; [cbn; lia|]. split; [intros g []|apply incl_refl].
Qed.
