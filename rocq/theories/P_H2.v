(** Lemmas on HEADERS frames. *)
From Coq Require Import Ascii String NArith ZArith Lia Bool List ZifyBool ZifyNat ZifyN.
From Verif Require Import Base P_Base M_Header M_Url M_Http1 S_Http1 S_Http1Api S_Map P_Map P_Http1 P_Msg S_Utf8 S_Url P_Url P_UrlForm
  M_Hpack S_Hpack S_HpackApi S_Near P_HpackCodec P_HpackSync M_Frame M_H2 S_Frame S_H2Api P_Frame P_Settings P_Ctl P_Data.
Import ListNotations.
Local Open Scope N_scope.
Ltac Zify.zify_post_hook ::= Z.div_mod_to_equations.

(** ** The chunks of a block *)
Lemma block_chunks_spec max fs : forall t t' b cur, encode_headers t fs = Ok (t', b) ->
  exists c cs, block_chunks max t fs cur = Ok (t', c :: cs) /\ concat (c :: cs) = cur ++ b.
Proof.
  induction fs as [|f fs IH]; intros t t' b cur E; cbn [encode_headers block_chunks] in *.
  - injection E as <- <-. exists cur, []. split; [reflexivity|]. reflexivity.
  - destruct (encode_header t f) as [[t1 b1]| | |]; try discriminate E. cbn [bind] in *.
    destruct (encode_headers t1 fs) as [[t2 b2]| | |] eqn:E2; try discriminate E. cbn [bind] in *. injection E as <- <-.
    destruct (IH t1 t2 b2 ((if max <? blen (fst f) + blen (snd f) + blen cur then [] else cur) ++ b1) E2) as (c & cs & H & C).
    rewrite H. cbn [bind]. destruct (max <? blen (fst f) + blen (snd f) + blen cur).
    + exists cur, (c :: cs). split; [reflexivity|]. change (concat (cur :: c :: cs)) with (cur ++ concat (c :: cs)). rewrite C. reflexivity.
    + exists c, cs. split; [reflexivity|]. rewrite C, <- app_assoc. reflexivity.
Qed.
Lemma cont_frames_octets fl id cs : id < 4294967296 -> Forall (fun c => blen c < 16777216) cs ->
  cont_frames fl id cs = continuations (set_end_headers fl) id cs.
Proof.
  intros I F. induction F as [|c cs Hc F IH]; [reflexivity|]. cbn [cont_frames continuations].
  assert (G : forall f, fh_encode (mkFH (blen c) KContinuation f id) ++ c = frame_octets 9 f id c).
  { intros f. rewrite fh_encode_octets by assumption. reflexivity. }
  destruct cs as [|d cs]; [apply G|]. rewrite IH. rewrite app_assoc, G. reflexivity.
Qed.
Lemma block_frames_octets fl id c cs : id < 4294967296 -> Forall (fun c => blen c < 16777216) (c :: cs) ->
  block_frames fl id (c :: cs) = block_octets (set_end_headers fl) id c cs.
Proof.
  intros I F. apply Forall_cons_iff in F as [Hc F]. cbn [block_frames]. unfold block_octets.
  assert (G : forall f, fh_encode (mkFH (blen c) KHeaders f id) ++ c = frame_octets 1 f id c).
  { intros f. rewrite fh_encode_octets by assumption. reflexivity. }
  destruct cs as [|d cs]; [apply G|]. rewrite <- cont_frames_octets by assumption. rewrite <- G, <- app_assoc. reflexivity.
Qed.
Lemma blen_concat_le (l : list bytes) : Forall (fun c => blen c <= blen (concat l)) l.
Proof.
  induction l as [|c l IH]; [constructor|]. cbn [concat]. constructor; [rewrite blen_app; lia|].
  eapply Forall_impl; [|exact IH]. intros d Hd. cbn beta in Hd. rewrite blen_app. lia.
Qed.
Lemma headers_encode_spec max t h t' b : encode_headers t (hf_fields h) = Ok (t', b) -> hf_id h < 4294967296 -> blen b < 16777216 ->
  exists c cs, headers_encode max t h = Ok (t', block_octets (set_end_headers (hf_flags h)) (hf_id h) c cs) /\ concat (c :: cs) = b.
Proof.
  intros E I L. destruct (block_chunks_spec max _ _ _ _ [] E) as (c & cs & H & C). exists c, cs. split; [|exact C].
  unfold headers_encode, block_encode. rewrite H. cbn [bind]. rewrite block_frames_octets; [reflexivity|exact I|].
  eapply Forall_impl; [|apply blen_concat_le]. intros d Hd. cbn beta in Hd. rewrite C in Hd. cbn [app] in Hd. lia.
Qed.

(** ** A connection *)
Lemma exchange_app a : forall te td b, exchange te td (a ++ b) =
  (' (te1, td1, g1) <- exchange te td a ;; ' (te2, td2, g2) <- exchange te1 td1 b ;; Ok (te2, td2, g1 ++ g2)).
Proof.
  induction a as [|[fs|m] a IH]; intros te td b; cbn [app exchange].
  - cbn [bind]. destruct (exchange te td b) as [[[x y] z]| | |]; reflexivity.
  - destruct (encode_headers te fs) as [[t1 b1]| | |]; try reflexivity. cbn [bind]. destruct (decode_headers td b1) as [t2 [g| | |]]; try reflexivity. cbn [bind].
    rewrite IH. destruct (exchange t1 t2 a) as [[[x y] z]| | |]; try reflexivity. cbn [bind].
    destruct (exchange x y b) as [[[x' y'] z']| | |]; reflexivity.
  - destruct (set_max_table_size te m); try reflexivity. cbn [bind]. destruct (set_max_table_size td m); try reflexivity. cbn [bind]. apply IH.
Qed.
Lemma sent_app a b : sent (a ++ b) = sent a ++ sent b.
Proof. induction a as [|[]]; cbn [app sent]; [reflexivity| |assumption]. f_equal. assumption. Qed.
Lemma maxima_app a b : maxima (a ++ b) = maxima a ++ maxima b.
Proof. induction a as [|[]]; cbn [app maxima]; [reflexivity|assumption|]. f_equal. assumption. Qed.
Lemma connection_sync te td fs : connection te td fs ->
  exists te' td' b, encode_headers te fs = Ok (te', b) /\ decode_headers td b = (td', Ok fs).
Proof.
  intros (m & evs & got & X & S & H & K).
  assert (C : concat (sent (evs ++ [EvBlock fs])) = concat (sent evs) ++ fs).
  { rewrite sent_app, concat_app. cbn [sent concat]. rewrite app_nil_r. reflexivity. }
  assert (Y : exists te' td', exchange (hi_with_size m) (hi_with_size m) (evs ++ [EvBlock fs]) =
                Ok (te', td', map (map lower_field) (sent (evs ++ [EvBlock fs])))).
  { destruct (exchange_sync _ (evs ++ [EvBlock fs]) (by_place_ok _ (h2_pool _ S H)) _ _ (fresh_pair m)) as (te' & td' & E & _); [|eauto].
    split; [exact K|]. split; [intros g []|rewrite C; apply incl_refl]. }
  destruct Y as (te' & td' & E). rewrite exchange_app, X in E. cbn [bind exchange] in E.
  destruct (encode_headers te fs) as [[t1 b]| | |]; try discriminate E. cbn [bind] in E.
  destruct (decode_headers td b) as [t2 [g| | |]] eqn:D; try discriminate E. cbn [bind] in E. injection E as <- <- E.
  exists t1, t2, b. split; [reflexivity|]. rewrite D. f_equal. f_equal.
  rewrite sent_app, map_app in E. cbn [sent map] in E. apply app_inj_tail in E as [_ E]. rewrite E.
  apply Forall_app in H as [_ H]. apply h2_lower_all, H.
Qed.

(** ** Lossy conversion of ASCII *)
Lemma lossy_head b l : ~ b < 128 -> exists x r, utf8_lossy (b :: l) = x :: r /\ 128 <= x.
Proof.
  intros H. cbn [utf8_lossy]. destruct (N.ltb_spec b 128); [contradiction|]. unfold repl.
  assert (R : forall r, exists x s, [239; 191; 189] ++ r = x :: s /\ 128 <= x) by (intros r; exists 239; eexists; split; [reflexivity|lia]).
  assert (R0 : exists x s, [239; 191; 189] = x :: s /\ 128 <= x) by (exists 239; eexists; split; [reflexivity|lia]).
  assert (Q : forall r, exists x s, b :: r = x :: s /\ 128 <= x) by (intros r; exists b; eexists; split; [reflexivity|lia]).
  destruct (is_lead2 b). { destruct l as [|b1 l2]; [exact R0|]. destruct (is_cont b1); [apply Q|apply R]. }
  destruct (is_lead3 b).
  { destruct l as [|b1 l2]; [exact R0|]. destruct (snd3_ok b b1); [|apply R]. destruct l2 as [|b2 l3]; [exact R0|]. destruct (is_cont b2); [apply Q|apply R]. }
  destruct (is_lead4 b).
  { destruct l as [|b1 l2]; [exact R0|]. destruct (snd4_ok b b1); [|apply R]. destruct l2 as [|b2 l3]; [exact R0|].
    destruct (is_cont b2); [|apply R]. destruct l3 as [|b3 l4]; [exact R0|]. destruct (is_cont b3); [apply Q|apply R]. }
  apply R.
Qed.
Lemma lossy_ascii_inv l : forall w, utf8_lossy l = w -> Forall (fun b => b < 128) w -> l = w.
Proof.
  induction l as [|b l IH]; intros w E F; [exact E|].
  destruct (N.ltb_spec b 128) as [B|B].
  - cbn [utf8_lossy] in E. rewrite (proj2 (N.ltb_lt _ _) B) in E. subst w. apply Forall_cons_iff in F as [_ F]. f_equal. apply IH; auto.
  - destruct (lossy_head b l) as (x & r & E' & X); [lia|]. rewrite E' in E. subst w. apply Forall_cons_iff in F as [F _]. lia.
Qed.
Lemma lossy_ascii l : Forall (fun b => b < 128) l -> utf8_lossy l = l.
Proof.
  induction 1 as [|b l H _ IH]; [reflexivity|]. cbn [utf8_lossy]. rewrite (proj2 (N.ltb_lt _ _) H), IH. reflexivity.
Qed.
Definition asciib (l : bytes) : bool := forallb (fun b => b <? 128) l.
Lemma asciib_ok l : asciib l = true -> Forall (fun b => b < 128) l.
Proof. intros H. apply Forall_forall. intros b I. unfold asciib in H. rewrite forallb_forall in H. apply N.ltb_lt, H, I. Qed.

(** ** What one field does *)
Lemma method_names_ascii m s : In (m, s) method_names -> Forall (fun b => b < 128) (str s).
Proof. intros H. cbn in H. repeat (destruct H as [H|H]; [injection H as <- <-; apply asciib_ok; reflexivity|]). destruct H. Qed.
Lemma three_digits_ascii c : 100 <= c <= 999 -> Forall (fun b => b < 128) (three_digits c).
Proof. intros H. unfold three_digits. constructor; [lia|]. constructor; [lia|]. constructor; [lia|constructor]. Qed.
Lemma bytes_ok_of l : Forall (fun b => b < 128) l -> bytes_ok l.
Proof. intros H. eapply Forall_impl; [|exact H]. intros b Hb. cbn beta in Hb. unfold byte_ok. lia. Qed.

Lemma method_lossy v : (exists m, method_of_str (utf8_lossy v) = Ok m) <-> (exists m s, In (m, s) method_names /\ v = str s).
Proof.
  split.
  - intros (m & H). apply method_try_from in H as (s & I & E). exists m, s. split; [exact I|]. apply lossy_ascii_inv in E; [exact E|].
    eapply method_names_ascii, I.
  - intros (m & s & I & ->). exists m. rewrite lossy_ascii by (eapply method_names_ascii, I). apply method_try_from. eauto.
Qed.
Lemma status_lossy v : (exists c, status_from_bytes (utf8_lossy v) = Ok c) <-> (exists c, 100 <= c <= 999 /\ v = three_digits c).
Proof.
  split.
  - intros (c & H).
    assert (A : exists x y z, utf8_lossy v = [x; y; z] /\ x < 128 /\ y < 128 /\ z < 128).
    { pose proof (utf8_bytes_ok _ (proj1 (utf8_valid_iff _) (utf8_lossy_ok v))) as B. unfold status_from_bytes in H. destruct (utf8_lossy v) as [|x [|y [|z [|? ?]]]]; try discriminate H.
      destruct (_ || _) eqn:Q; [discriminate H|]. exists x, y, z. split; [reflexivity|].
      repeat (apply bytes_ok_cons in B as [? B]). unfold byte_ok, wsub48 in *. clear - Q H0 H1 H2. lia. }
    destruct A as (x & y & z & E & X & Y & Z). rewrite E in H. apply from_bytes_spec in H as [R T].
    + exists c. split; [exact R|]. rewrite <- T. apply lossy_ascii_inv; [exact E|]. auto.
    + apply bytes_ok_of. auto.
  - intros (c & R & ->). exists c. rewrite lossy_ascii by (apply three_digits_ascii, R).
    apply from_bytes_spec; [apply bytes_ok_of, three_digits_ascii, R|]. auto.
Qed.

Definition fields_only (n : bytes) : Prop := hd_error n <> Some 58 \/
  (n <> str ":authority" /\ n <> str ":method" /\ n <> str ":path" /\ n <> str ":scheme" /\ n <> str ":status").
Lemma name_is_spec_hd n : name_is_spec n = true <-> hd_error n = Some 58.
Proof. destruct n as [|b n]; cbn; [split; discriminate|]. rewrite N.eqb_eq. split; congruence. Qed.
Lemma spec_hd_false n : hd_error n <> Some 58 -> name_is_spec n = false.
Proof. intros H. destruct (name_is_spec n) eqn:E; [apply name_is_spec_hd in E; contradiction|reflexivity]. Qed.
Ltac beq_cases n s :=
  let E := fresh "E" in destruct (beq n s) eqn:E; [apply beq_eq in E; subst n|apply beq_neq in E].

Lemma hdr_field_total h f : (exists h', hdr_field h f = Ok h') \/ (exists e, hdr_field h f = Err e).
Proof.
  destruct f as [n v]. unfold hdr_field. destruct (name_is_spec n); [|eauto].
  destruct (beq n (str ":authority")); [eauto|].
  destruct (beq n (str ":method")).
  { unfold method_of_str. repeat match goal with |- context [if ?c then _ else _] => destruct c end; cbn [bind]; eauto. }
  destruct (beq n (str ":path")); [eauto|].
  destruct (beq n (str ":scheme")).
  { destruct (scheme_of_str_returns (utf8_lossy v)) as [A B]. destruct (scheme_of_str (utf8_lossy v)); [cbn [bind]; eauto..|contradiction|contradiction]. }
  destruct (beq n (str ":status")); [|eauto].
  destruct (from_bytes_err (utf8_lossy v)) as [(c & E)|E]; rewrite E; cbn [bind]; eauto.
Qed.
Lemma scheme_of_str_ok t : (exists s, scheme_of_str t = Ok s) <-> blen t <= 64.
Proof.
  unfold scheme_of_str. destruct (N.ltb_spec 64 (blen t)) as [H|H].
  - split; [intros (s & E); discriminate E|lia].
  - split; [intros _; exact H|]. intros _. repeat match goal with |- context [if ?c then _ else _] => destruct c end; eauto.
Qed.
Lemma hdr_field_ok_iff h f : (exists h', hdr_field h f = Ok h') <-> pseudo_ok f.
Proof.
  destruct f as [n v]. unfold hdr_field, pseudo_ok. cbn [fst snd].
  destruct (name_is_spec n) eqn:Sp.
  - destruct (beq n (str ":authority")) eqn:E1.
    { apply beq_eq in E1. subst n. split; [intros _; repeat split; discriminate|eauto]. }
    destruct (beq n (str ":method")) eqn:E2.
    { apply beq_eq in E2. subst n. split.
      - intros (h' & H). split; [|split; discriminate]. intros _. apply method_lossy.
        destruct (method_of_str (utf8_lossy v)) as [m| | |]; try discriminate H. eauto.
      - intros (H & _). specialize (H eq_refl). apply method_lossy in H as (m & ->). cbn [bind]. eauto. }
    destruct (beq n (str ":path")) eqn:E3.
    { apply beq_eq in E3. subst n. split; [intros _; repeat split; discriminate|eauto]. }
    destruct (beq n (str ":scheme")) eqn:E4.
    { apply beq_eq in E4. subst n. split.
      - intros (h' & H). split; [discriminate|]. split; [|discriminate]. intros _. apply scheme_of_str_ok.
        destruct (scheme_of_str (utf8_lossy v)) as [m| | |]; try discriminate H. eauto.
      - intros (_ & H & _). specialize (H eq_refl). apply scheme_of_str_ok in H as (m & ->). cbn [bind]. eauto. }
    destruct (beq n (str ":status")) eqn:E5.
    { apply beq_eq in E5. subst n. split.
      - intros (h' & H). split; [discriminate|]. split; [discriminate|]. intros _. apply status_lossy.
        destruct (status_from_bytes (utf8_lossy v)) as [m| | |]; try discriminate H. eauto.
      - intros (_ & _ & H). specialize (H eq_refl). apply status_lossy in H as (m & ->). cbn [bind]. eauto. }
    apply beq_neq in E2, E4, E5. split; [|eauto]. intros _. split; [|split]; intros C; contradiction.
  - split; [|eauto]. intros _. split; [|split]; intros ->; discriminate Sp.
Qed.

(** ** The collection loop *)
Fixpoint hdr_all (h : headersf) (l : list hfield) : res headersf :=
  match l with [] => Ok h | f :: r => h' <- hdr_field h f ;; hdr_all h' r end.
Lemma total_size_cons f l : total_size (f :: l) = size_of f + total_size l.
Proof. reflexivity. Qed.
Lemma hdr_collect_within max : forall l size h, size + total_size l <= max ->
  match hdr_all h l with
  | Ok h' => hdr_collect max size h l = (h', Ok tt)
  | Err e => snd (hdr_collect max size h l) = Err e
  | _ => False
  end.
Proof.
  induction l as [|f l IH]; intros size h H; [reflexivity|]. cbn [hdr_all hdr_collect].
  rewrite total_size_cons in H. unfold size_of in H.
  destruct (N.ltb_spec max (size + (blen (fst f) + blen (snd f) + 32))) as [C|C]; [lia|].
  destruct (hdr_field_total h f) as [(h' & E)|(e & E)]; rewrite E; cbn [bind try_ snd]; [|reflexivity].
  apply IH. lia.
Qed.
Lemma hdr_collect_over max : forall l size h, size <= max -> max < size + total_size l -> exists e, snd (hdr_collect max size h l) = Err e.
Proof.
  induction l as [|f l IH]; intros size h H0 H; [cbn [total_size fold_right] in H; change (total_size []) with 0 in H; lia|]. cbn [hdr_collect].
  rewrite total_size_cons in H. unfold size_of in H.
  destruct (N.ltb_spec max (size + (blen (fst f) + blen (snd f) + 32))) as [C|C]; [eexists; reflexivity|].
  destruct (hdr_field_total h f) as [(h' & E)|(e & E)]; rewrite E; cbn [try_ snd]; [|eauto].
  apply IH; lia.
Qed.
Lemma hdr_all_ok_iff l : forall h, (exists h', hdr_all h l = Ok h') <-> Forall pseudo_ok l.
Proof.
  induction l as [|f l IH]; intros h; cbn [hdr_all]; [split; [constructor|eauto]|]. rewrite Forall_cons_iff. split.
  - intros (h2 & H). destruct (hdr_field h f) as [h1| | |] eqn:E; try discriminate H. cbn [bind] in H.
    split; [apply (hdr_field_ok_iff h); eauto|]. apply (IH h1). eauto.
  - intros [A B]. apply (hdr_field_ok_iff h) in A as (h1 & E). rewrite E. cbn [bind]. apply IH, B.
Qed.
Lemma hdr_collect_iff max l h : (exists h', hdr_collect max 0 h l = (h', Ok tt)) <-> total_size l <= max /\ Forall pseudo_ok l.
Proof.
  destruct (N.leb_spec (total_size l) max) as [H|H].
  - pose proof (hdr_collect_within max l 0 h ltac:(lia)) as W. rewrite <- (hdr_all_ok_iff l h). split.
    + intros (h' & E). split; [exact H|]. destruct (hdr_all h l) as [h1|e| |]; [eauto| |contradiction..]. rewrite E in W. discriminate W.
    + intros (_ & h' & E). rewrite E in W. eauto.
  - split; [|intros [C _]; lia]. intros (h' & E). destruct (hdr_collect_over max l 0 h) as (e & C); [lia..|]. rewrite E in C. discriminate C.
Qed.

Lemma headers_parse_plain t h l L : is_priority (hf_flags h) = false ->
  headers_parse t h l L =
  let '(t', r) := decode_headers t l in
  match r with
  | Ok fs => let '(h2, c) := hdr_collect L 0 h fs in (t', h2, u <- c ;; Ok (blen l))
  | Err e => (t', h, Err e) | Panic => (t', h, Panic) | Diverge => (t', h, Diverge)
  end.
Proof. intros P. unfold headers_parse. rewrite P. reflexivity. Qed.
Lemma headers_parse_iff t h l L : is_priority (hf_flags h) = false ->
  ((exists t' hf n, headers_parse t h l L = (t', hf, Ok n)) <->
   exists t' fs, decode_headers t l = (t', Ok fs) /\ total_size fs <= L /\ Forall pseudo_ok fs).
Proof.
  intros P. rewrite headers_parse_plain by exact P. destruct (decode_headers t l) as [t' r]. destruct r as [fs|e| |].
  - pose proof (hdr_collect_iff L fs h) as I. destruct (hdr_collect L 0 h fs) as [h2 c] eqn:E. split.
    + intros (t2 & hf & n & H). destruct c as [[]| | |]; try discriminate H. exists t', fs. split; [reflexivity|]. apply I. eauto.
    + intros (t2 & gs & H & K). injection H as <- <-. apply I in K as (h' & K). injection K as _ ->. cbn [bind]. eauto.
  - split; [intros (a & b & c & H); discriminate H|intros (a & b & H & _); discriminate H].
  - split; [intros (a & b & c & H); discriminate H|intros (a & b & H & _); discriminate H].
  - split; [intros (a & b & c & H); discriminate H|intros (a & b & H & _); discriminate H].
Qed.
Lemma headers_parse_prio t h l L : is_priority (hf_flags h) = true ->
  ((exists t' hf n, headers_parse t h l L = (t', hf, Ok n)) <->
   exists pre block t' fs, l = pre ++ block /\ length pre = 5%nat /\
     decode_headers t block = (t', Ok fs) /\ total_size fs <= L /\ Forall pseudo_ok fs).
Proof.
  intros P. unfold headers_parse. rewrite P.
  destruct (N.ltb_spec (blen l) 5) as [S|S].
  - rewrite dep_load_short by exact S. cbn [bind]. split; [intros (a & b & c & H); discriminate H|].
    intros (pre & block & t' & fs & -> & N & _). rewrite blen_app in S. unfold blen in S at 1. lia.
  - assert (D : exists pre block d, l = pre ++ block /\ length pre = 5%nat /\ dep_load l = Ok (d, block)).
    { unfold blen in S. destruct l as [|a [|b [|c [|d [|e l]]]]]; try (cbn [length] in S; lia).
      exists [a; b; c; d; e], l. unfold dep_load. destruct (N.ltb_spec (blen (a :: b :: c :: d :: e :: l)) 5) as [C|_]; [unfold blen in C; cbn [length] in C; lia|].
      cbn [get take_n bind]. eexists. split; [reflexivity|]. split; [reflexivity|]. reflexivity. }
    destruct D as (pre & block & d & -> & N & D). rewrite D. cbn [bind].
    assert (Q : forall (pre' block' : bytes), pre ++ block = pre' ++ block' -> length pre' = 5%nat -> pre = pre' /\ block = block').
    { intros pre' block' E N'. apply P_Huffman.app_inj_length; [congruence|exact E]. }
    destruct (decode_headers t block) as [t' r] eqn:B. destruct r as [fs|e| |].
    + pose proof (hdr_collect_iff L fs (hf_set_dep h (Some d))) as I. destruct (hdr_collect L 0 (hf_set_dep h (Some d)) fs) as [h2 c] eqn:E. split.
      * intros (t2 & hf & n & H). destruct c as [[]| | |]; try discriminate H. exists pre, block, t', fs. split; [reflexivity|].
        split; [exact N|]. split; [exact B|]. apply I. eauto.
      * intros (pre' & block' & t2 & gs & E' & N' & H & K). destruct (Q _ _ E' N') as [<- <-]. rewrite B in H. injection H as <- <-.
        apply I in K as (h' & K). injection K as _ ->. cbn [bind]. eauto.
    + split; [intros (a & b & c & H); discriminate H|]. intros (pre' & block' & t2 & gs & E' & N' & H & K). destruct (Q _ _ E' N') as [<- <-]. congruence.
    + split; [intros (a & b & c & H); discriminate H|]. intros (pre' & block' & t2 & gs & E' & N' & H & K). destruct (Q _ _ E' N') as [<- <-]. congruence.
    + split; [intros (a & b & c & H); discriminate H|]. intros (pre' & block' & t2 & gs & E' & N' & H & K). destruct (Q _ _ E' N') as [<- <-]. congruence.
Qed.
