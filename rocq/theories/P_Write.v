(** Lemmas on writes with counts. *)
From Coq Require Import Ascii String NArith ZArith Lia Bool List ZifyBool ZifyNat ZifyN.
From Verif Require Import Base P_Base M_Std M_Helper M_Header M_Url M_Http1 M_Hpack M_Frame M_H2 M_Ws S_Ws M_Write S_Write P_Std P_Frame P_Ws.
Import ListNotations.
Local Open Scope N_scope.

Lemma snd_seq v w : snd (v ;+ w) = (n <- snd v ;; m <- snd w ;; Ok (n + m)).
Proof. unfold wseq. destruct (snd v); reflexivity. Qed.
Lemma fst_seq v w n : snd v = Ok n -> fst (v ;+ w) = fst v ++ fst w.
Proof. unfold wseq. intros ->. reflexivity. Qed.
Lemma fst_stop v w : (forall n, snd v <> Ok n) -> fst (v ;+ w) = fst v.
Proof. unfold wseq. intros H. destruct (snd v) as [n|e| |]; try reflexivity. destruct (H n eq_refl). Qed.
Lemma wrote_put b : wrote (put b) b.
Proof. split; reflexivity. Qed.
Lemma wrote_as n b : n = blen b -> wrote (put_as n b) b.
Proof. intros ->. split; reflexivity. Qed.
Lemma wrote_seq v w a b : wrote v a -> wrote w b -> wrote (v ;+ w) (a ++ b).
Proof.
  intros [A1 A2] [B1 B2]. unfold wseq. rewrite A2. split; cbn [fst snd]; [congruence|]. rewrite B2. cbn. rewrite blen_app. reflexivity.
Qed.
Lemma wrote_none : wrote wnone [].
Proof. split; reflexivity. Qed.
Lemma wrote_all {A} (f : A -> wr) (g : A -> bytes) l : (forall a, wrote (f a) (g a)) -> wrote (wall f l) (concat (map g l)).
Proof. intros H. induction l as [|a l IH]; cbn; [apply wrote_none|]. apply wrote_seq; auto. Qed.
Lemma wrote_fun w b b' : wrote w b -> wrote w b' -> b = b'.
Proof. intros [<- _] [<- _]. reflexivity. Qed.

Lemma header_wrote h : wrote (header_write h) (hm_encode h).
Proof.
  unfold header_write, hm_encode. apply wrote_seq; [|apply wrote_put]. apply wrote_all. intros [n v]. cbn [fst snd]. unfold encode_header_line.
  repeat (apply wrote_seq || apply wrote_put).
Qed.
Lemma method_agrees m : agrees (method_write m) (method_encode m).
Proof. destruct m; cbn; try apply wrote_put; reflexivity. Qed.
Lemma version_agrees m : agrees (version_write m) (version_encode m).
Proof. destruct m; cbn; try apply wrote_put; reflexivity. Qed.
Lemma status_agrees n : agrees (status_write n) (status_encode n).
Proof. unfold status_write, status_encode. destruct (canonical_reason n); [apply wrote_put|reflexivity]. Qed.
Lemma scheme_agrees s : agrees (scheme_write s) (scheme_serialize s).
Proof. destruct s; cbn; try apply wrote_put; reflexivity. Qed.

(** Sequencing with a part that may fail. *)
Lemma agrees_bind v r w k : agrees v r -> (forall b, r = Ok b -> agrees w (k b)) ->
  agrees (v ;+ w) (a <- r ;; b <- k a ;; Ok (a ++ b)).
Proof.
  intros V W. destruct r as [a|e| |]; cbn in *.
  - destruct V as [V1 V2]. specialize (W a eq_refl). unfold wseq. rewrite V2. destruct (k a) as [b|e| |]; cbn in *.
    + destruct W as [W1 W2]. split; cbn; [congruence|]. rewrite W2. cbn. rewrite blen_app. reflexivity.
    + rewrite W. reflexivity.
    + rewrite W. reflexivity.
    + rewrite W. reflexivity.
  - unfold wseq. rewrite V. reflexivity.
  - unfold wseq. rewrite V. reflexivity.
  - unfold wseq. rewrite V. reflexivity.
Qed.
Ltac parts_wrote := repeat first [exact (header_wrote _)|assumption|split; assumption|exact (wrote_put _)|apply wrote_seq].
Lemma req_agrees q : agrees (req_write q) (req_encode_header q).
Proof.
  unfold req_write. pose proof (method_agrees (q_method q)) as M. pose proof (version_agrees (q_version q)) as V.
  unfold req_encode_header. destruct (method_encode (q_method q)) as [m|e| |]; cbn [agrees] in M; cbn [bind agrees];
    try (rewrite snd_seq, M; reflexivity).
  destruct M as [M1 M2]. destruct (version_encode (q_version q)) as [v|e| |]; cbn [agrees] in V; cbn [bind agrees].
  2-4: rewrite !snd_seq, M2, V; reflexivity.
  change (32 :: u_path (q_url q) ++ 32 :: v ++ crlf ++ hm_encode (q_header q)) with ([32] ++ u_path (q_url q) ++ [32] ++ v ++ crlf ++ hm_encode (q_header q)).
  parts_wrote.
Qed.
Lemma resp_agrees p : agrees (resp_write p) (resp_encode_header p).
Proof.
  unfold resp_write. pose proof (status_agrees (p_status p)) as M. pose proof (version_agrees (p_version p)) as V.
  unfold resp_encode_header. destruct (version_encode (p_version p)) as [v|e| |]; cbn [agrees] in V; cbn [bind agrees];
    try (rewrite snd_seq, V; reflexivity).
  destruct V as [V1 V2]. destruct (status_encode (p_status p)) as [m|e| |]; cbn [agrees] in M; cbn [bind agrees].
  2-4: rewrite !snd_seq, V2, M; reflexivity.
  change (32 :: m ++ hm_encode (p_header p)) with ([32] ++ m ++ hm_encode (p_header p)).
  parts_wrote.
Qed.
Lemma chunk_wrote d : wrote (chunk_write d) (encode_chunk_data d).
Proof. unfold chunk_write, encode_chunk_data. repeat (apply wrote_seq || apply wrote_put). Qed.

(** What a failed write leaves behind. *)
Lemma req_left q w e : req_write q = (w, Err e) ->
  (q_method q = MNone /\ w = [] /\ e = ESerialize "method") \/
  (q_method q <> MNone /\ q_version q = VNone /\ w = method_str (q_method q) ++ 32 :: u_path (q_url q) ++ [32] /\ e = ESerialize "version").
Proof.
  intros H. pose proof (req_agrees q) as A. unfold req_encode_header in A.
  destruct (q_method q) eqn:M; [left; unfold req_write in H; rewrite M in H; cbn in H; injection H as <- <-; auto|..].
  all: right; (split; [discriminate|]); destruct (q_version q) eqn:V;
    [|cbn in A; destruct A as [_ A]; rewrite H in A; discriminate A..].
  all: split; [reflexivity|]; unfold req_write in H; rewrite M, V in H; cbn in H; injection H as <- <-; split; [|reflexivity]; rewrite ?app_nil_r; reflexivity.
Qed.
Lemma resp_left p w e : resp_write p = (w, Err e) ->
  (p_version p = VNone /\ w = [] /\ e = ESerialize "version") \/
  (p_version p <> VNone /\ canonical_reason (p_status p) = None /\ w = version_str (p_version p) ++ [32] /\ e = EHttp InvalidStatusCode).
Proof.
  intros H. pose proof (resp_agrees p) as A. unfold resp_encode_header, status_encode in A.
  destruct (p_version p) eqn:V; [left; unfold resp_write in H; rewrite V in H; cbn in H; injection H as <- <-; auto|..].
  all: right; (split; [discriminate|]); destruct (canonical_reason (p_status p)) eqn:C;
    [cbn in A; destruct A as [_ A]; rewrite H in A; discriminate A|].
  all: split; [reflexivity|]; unfold resp_write, status_write in H; rewrite V, C in H; cbn in H; injection H as <- <-; split; reflexivity.
Qed.

(** Bodies. *)
Lemma body_wrote b : fst (body_write b) = b /\ wrote (snd (body_write b)) (body_bytes b).
Proof. destruct b; split; try reflexivity; try apply wrote_put; split; reflexivity. Qed.
Lemma req_data_octets q b : req_data q b = (b, req_http1_data q (body_bytes b)).
Proof.
  unfold req_data, req_http1_data. pose proof (req_agrees q) as A. destruct (body_wrote b) as [E [W1 W2]].
  destruct (req_encode_header q) as [h|e| |]; cbn in A.
  - destruct A as [A1 A2]. rewrite A2. destruct (body_write b) as [b' w]. cbn [fst snd] in *. rewrite W2. cbn. rewrite A1, W1, E. reflexivity.
  - rewrite A. reflexivity.
  - rewrite A. reflexivity.
  - rewrite A. reflexivity.
Qed.
Lemma resp_serialize_agrees p b : fst (resp_serialize p b) = b /\ agrees (snd (resp_serialize p b)) (resp_httpdata p (body_bytes b)).
Proof.
  unfold resp_serialize. destruct (body_wrote b) as [E W]. destruct (body_write b) as [b' w]. cbn [fst snd] in *. split; [exact E|].
  pose proof (status_agrees (p_status p)) as M. pose proof (version_agrees (p_version p)) as V.
  unfold resp_httpdata, resp_encode_header. destruct (version_encode (p_version p)) as [v|e| |]; cbn [agrees] in V; cbn [bind agrees];
    try (rewrite snd_seq, V; reflexivity).
  destruct V as [V1 V2]. destruct (status_encode (p_status p)) as [m|e| |]; cbn [agrees] in M; cbn [bind agrees].
  2-4: rewrite !snd_seq, V2, M; reflexivity.
  replace ((v ++ 32 :: m ++ hm_encode (p_header p)) ++ body_bytes b) with (v ++ [32] ++ m ++ hm_encode (p_header p) ++ body_bytes b).
  2: { change (32 :: m ++ hm_encode (p_header p)) with ([32] ++ m ++ hm_encode (p_header p)). rewrite <- !app_assoc. reflexivity. }
  parts_wrote.
Qed.
Lemma resp_data_octets p b : resp_data p b = (b, resp_httpdata p (body_bytes b)).
Proof.
  unfold resp_data. destruct (resp_serialize_agrees p b) as [E A]. destruct (resp_serialize p b) as [b' w]. cbn [fst snd] in *. subst b'. f_equal.
  destruct (resp_httpdata p (body_bytes b)) as [x|e| |]; cbn in A; [destruct A as [A1 A2]; rewrite A2; cbn; congruence|rewrite A; reflexivity..].
Qed.
Lemma into_binary_same b : body_bytes (into_binary b) = body_bytes b.
Proof. unfold into_binary. destruct (body_wrote b) as [_ [W _]]. exact W. Qed.

(** Frames. *)
Lemma fh_wrote h : wrote (fh_write h) (fh_encode h).
Proof.
  unfold fh_write, fh_encode. repeat apply wrote_seq; try apply wrote_put; apply wrote_as; unfold blen; rewrite ?be_enc_length; reflexivity.
Qed.
Ltac frame_wrote := repeat first [exact (fh_wrote _)|assumption|exact (wrote_put _)|apply wrote_seq].
Lemma setting_wrote s : wrote (setting_write s) (setting_encode s).
Proof. apply wrote_as. destruct s; cbn [setting_encode]; rewrite blen_app; unfold blen; rewrite !be_enc_length; reflexivity. Qed.
Lemma settings_wrote s : wrote (settings_write s) (settings_encode s).
Proof. unfold settings_write, settings_encode. apply wrote_seq; [apply fh_wrote|]. apply wrote_all, setting_wrote. Qed.
Lemma data_loop_agrees k max id fl : forall l, agrees (snd (data_write_loop k max id fl l)) (data_loop k max id fl l).
Proof.
  induction k as [|k IH]; intros l; [reflexivity|]. cbn [data_write_loop data_loop]. cbv zeta.
  destruct (N.min (blen l) max <? blen l).
  - specialize (IH (skipn (N.to_nat (N.min (blen l) max)) l)). destruct (data_write_loop _ _ _ _ _) as [rest w]. cbn [fst snd] in *.
    destruct (fh_wrote (mkFH (N.min (blen l) max) KData (unset_end_stream fl) id)) as [F1 F2].
    destruct (data_loop _ _ _ _ _) as [x|e| |]; cbn in IH; cbn [bind agrees].
    + frame_wrote.
    + unfold wseq. rewrite F2. cbn. rewrite IH. reflexivity.
    + unfold wseq. rewrite F2. cbn. rewrite IH. reflexivity.
    + unfold wseq. rewrite F2. cbn. rewrite IH. reflexivity.
  - cbn [snd agrees]. apply wrote_seq; [apply fh_wrote|apply wrote_as; reflexivity].
Qed.
Lemma data_agrees max d : agrees (snd (data_write max d)) (data_encode max d).
Proof.
  unfold data_write, data_encode. pose proof (data_loop_agrees (S (length (da_data d))) max (da_id d) (da_flags d) (da_data d)) as A.
  destruct (data_write_loop _ _ _ _ _). exact A.
Qed.
Lemma ping_wrote p : wrote (ping_write p) (ping_encode p).
Proof. apply wrote_seq; [apply fh_wrote|apply wrote_put]. Qed.
Lemma goaway_wrote p : wrote (goaway_write p) (goaway_encode p).
Proof. unfold goaway_write, goaway_encode. frame_wrote. Qed.
Lemma reset_wrote p : wrote (reset_write p) (reset_encode p).
Proof. apply wrote_seq; [apply fh_wrote|apply wrote_put]. Qed.
Lemma winupd_wrote p : wrote (winupd_write p) (winupd_encode p).
Proof. apply wrote_seq; [apply fh_wrote|apply wrote_put]. Qed.
Lemma dep_wrote d : wrote (dep_write d) (dep_encode d).
Proof. split; reflexivity. Qed.
Lemma priority_wrote p : wrote (priority_write p) (priority_encode p).
Proof. apply wrote_seq; [apply fh_wrote|apply dep_wrote]. Qed.
Lemma block_one k fl id c : wrote (block_write_one k fl id c) (fh_encode (mkFH (blen c) k fl id) ++ c).
Proof. apply wrote_seq; [apply fh_wrote|apply wrote_as; reflexivity]. Qed.
Lemma cont_wrote fl id cs : wrote (cont_write fl id cs) (cont_frames fl id cs).
Proof.
  induction cs as [|c cs IH]; [apply wrote_none|]. destruct cs as [|c' cs]; [apply block_one|].
  change (wrote (block_write_one KContinuation flag_zero id c ;+ cont_write fl id (c' :: cs)) (fh_encode (mkFH (blen c) KContinuation flag_zero id) ++ c ++ cont_frames fl id (c' :: cs))).
  rewrite app_assoc. apply wrote_seq; [apply block_one|exact IH].
Qed.
Lemma block_wrote fl id cs : wrote (block_write_frames fl id cs) (block_frames fl id cs).
Proof.
  destruct cs as [|c cs]; [apply wrote_none|]. destruct cs as [|c' cs]; [apply block_one|].
  change (wrote (block_write_one KHeaders flag_zero id c ;+ cont_write fl id (c' :: cs)) (fh_encode (mkFH (blen c) KHeaders flag_zero id) ++ c ++ cont_frames fl id (c' :: cs))).
  rewrite app_assoc. apply wrote_seq; [apply block_one|apply cont_wrote].
Qed.
Definition agrees_t (x : res (hindex * wr)) (r : res (hindex * bytes)) : Prop :=
  match r with
  | Ok (t, b) => exists w, x = Ok (t, w) /\ wrote w b
  | Err e => x = Err e
  | Panic => x = Panic
  | Diverge => x = Diverge
  end.
Lemma block_agrees max t fl id f : agrees_t (block_write max t fl id f) (block_encode max t fl id f).
Proof.
  unfold block_write, block_encode. destruct (block_chunks max t f []) as [[t' cs]|e| |]; cbn; try reflexivity.
  eexists. split; [reflexivity|]. apply block_wrote.
Qed.
Lemma push_agrees max t p : agrees_t (push_write max t p) (push_encode max t p).
Proof.
  unfold push_write, push_encode. cbv zeta.
  destruct (push_spec (t, parts_encode_header (pp_parts p) (pp_fields p), []) ":method") as [s1|e| |]; cbn [bind]; try reflexivity.
  destruct (push_spec s1 ":authority") as [s2|e| |]; cbn [bind]; try reflexivity.
  destruct (push_spec s2 ":scheme") as [s3|e| |]; cbn [bind]; try reflexivity.
  destruct (push_spec s3 ":path") as [[[t4 h4] b]|e| |]; cbn [bind]; try reflexivity.
  pose proof (block_agrees max t4 (pp_flags p) (pp_promised p) h4) as A.
  destruct (block_encode max t4 (pp_flags p) (pp_promised p) h4) as [[t5 r]|e| |]; cbn in A; [|rewrite A; reflexivity..].
  destruct A as (w & -> & W). cbn [bind agrees_t]. eexists. split; [reflexivity|].
  apply wrote_seq; [apply fh_wrote|]. apply wrote_seq; [apply wrote_as; reflexivity|].
  apply wrote_seq; [apply wrote_as; reflexivity|exact W].
Qed.
Lemma frame_counts max t f t' b n :
  frame_write max t f = Ok (t', (b, Ok n)) <-> frame_encode max t f = Ok (t', b) /\ n = blen b.
Proof.
  assert (G : forall x r, agrees_t x r -> (x = Ok (t', (b, Ok n)) <-> r = Ok (t', b) /\ n = blen b)).
  { intros x [[u c]|e| |]; cbn.
    - intros ([w1 w2] & -> & [W1 W2]). cbn in W1, W2. subst w1 w2. split; intros H.
      + injection H as -> -> <-. auto.
      + destruct H as [H ->]. injection H as -> ->. reflexivity.
    - intros ->. split; [discriminate|intros [H _]; discriminate].
    - intros ->. split; [discriminate|intros [H _]; discriminate].
    - intros ->. split; [discriminate|intros [H _]; discriminate]. }
  assert (F : forall w c, wrote w c -> (Ok (t, w) = Ok (t', (b, Ok n)) <-> Ok (t, c) = Ok (t', b) /\ n = blen b)).
  { intros w c W. apply (G (Ok (t, w)) (Ok (t, c))). exists w. auto. }
  destruct f as [d|h|p|p|s|p|g|w|r]; cbn [frame_write frame_encode].
  - pose proof (data_agrees max d) as A. destruct (data_encode max d) as [c|e| |]; cbn [agrees] in A; cbn [bind].
    + apply F, A.
    + split; [|intros [H _]; discriminate]. intros H. injection H as _ H. rewrite H in A. discriminate A.
    + split; [|intros [H _]; discriminate]. intros H. injection H as _ H. rewrite H in A. discriminate A.
    + split; [|intros [H _]; discriminate]. intros H. injection H as _ H. rewrite H in A. discriminate A.
  - apply G, block_agrees.
  - apply F, priority_wrote.
  - apply G, push_agrees.
  - apply F, settings_wrote.
  - apply F, ping_wrote.
  - apply F, goaway_wrote.
  - apply F, winupd_wrote.
  - apply F, reset_wrote.
Qed.

(** ** What is left in a DATA frame after it was encoded *)
Lemma data_left k max id fl : 0 < max -> forall l, (length l < k)%nat -> exists a, l = a ++ fst (data_write_loop k max id fl l) /\
  blen (fst (data_write_loop k max id fl l)) <= max /\ (blen l <= max -> a = []).
Proof.
  intros M. induction k as [|k IH]; intros l K; [lia|]. cbn [data_write_loop]. cbv zeta.
  destruct (N.min (blen l) max <? blen l) eqn:E.
  - assert (G : (length (skipn (N.to_nat (N.min (blen l) max)) l) < k)%nat) by (rewrite skipn_length; unfold blen in *; lia).
    destruct (IH _ G) as (a & A & B & _). destruct (data_write_loop k max id fl _) as [rest w]. cbn [fst] in *.
    exists (firstn (N.to_nat (N.min (blen l) max)) l ++ a). split; [rewrite <- app_assoc, <- A; symmetry; apply firstn_skipn|]. split; [exact B|].
    intros C. exfalso. lia.
  - exists []. cbn [fst]. split; [reflexivity|]. split; [lia|]. reflexivity.
Qed.
Lemma data_write_left max d : 0 < max -> exists a, da_data d = a ++ da_data (fst (data_write max d)) /\
  blen (da_data (fst (data_write max d))) <= max /\ (blen (da_data d) <= max -> fst (data_write max d) = d).
Proof.
  intros M. unfold data_write. destruct (data_left (S (length (da_data d))) max (da_id d) (da_flags d) M (da_data d) (Nat.lt_succ_diag_r _)) as (a & A & B & C).
  destruct (data_write_loop _ _ _ _ _) as [rest w]. cbn [fst da_data] in *. exists a. split; [exact A|]. split; [exact B|]. intros H. rewrite (C H) in A. cbn in A.
  destruct d as [i x f]. cbn [da_id da_flags da_data] in *. congruence.
Qed.
Lemma data_used_up max d : 0 < max -> max < blen (da_data d) -> da_data (fst (data_write max d)) <> da_data d.
Proof. intros M L H. destruct (data_write_left max d M) as (a & _ & B & _). rewrite H in B. lia. Qed.

(** ** WebSocket *)
Lemma ws_count d key b : write_to d key = Ok b -> ws_write d key = (b, Ok 0).
Proof. unfold ws_write. intros ->. reflexivity. Qed.

(** ** Small codecs *)
Lemma increment_roundtrip v r : v < 2 ^ 32 -> increment_parse (fst (increment_serialize v) ++ r) = Ok (v, r) /\ increment_encode v = increment_serialize v.
Proof.
  intros H. split; [|reflexivity]. unfold increment_parse, increment_serialize, put, get. cbn [fst].
  rewrite take_n_app by apply be_enc_length. rewrite be_dec_enc_small by exact H. reflexivity.
Qed.
Lemma error_code_lost v r : error_code_parse (fst (error_code_serialize v) ++ r) = Ok (0, r).
Proof. unfold error_code_parse, error_code_serialize, put_as. cbn [fst]. rewrite take_n_app by apply be_enc_length. reflexivity. Qed.

(** ** display_name *)
Lemma dec_print_inj a b : dec_print a = dec_print b -> a = b.
Proof. intros H. rewrite <- (dec_print_val a), <- (dec_print_val b), H. reflexivity. Qed.
Lemma before_paren a b x y : ~ In 40 a -> ~ In 40 b -> a ++ 40 :: x = b ++ 40 :: y -> a = b /\ x = y.
Proof.
  revert b. induction a as [|c a IH]; intros [|d b] A B H; cbn in H.
  - injection H as ->. auto.
  - injection H as <- H. destruct B. left. reflexivity.
  - injection H as -> H. destruct A. left. reflexivity.
  - injection H as <- H. destruct (IH b) as [-> ->]; [intros K; apply A; right; exact K|intros K; apply B; right; exact K|exact H|auto].
Qed.
Lemma show_inj n m i j : ~ In 40 (str n) -> ~ In 40 (str m) -> show_frame n i = show_frame m j -> str n = str m /\ i = j.
Proof.
  intros N M H. unfold show_frame in H. apply before_paren in H as [E H]; [|assumption..]. split; [exact E|].
  apply app_inj_tail in H as [H _]. apply dec_print_inj, H.
Qed.
Lemma display_name_iff f g : frame_display_name f = frame_display_name g <-> same_type f g /\ on_stream f = on_stream g.
Proof.
  assert (P : forall n m i j, show_frame n i = show_frame m j -> existsb (N.eqb 40) (str n) = false -> existsb (N.eqb 40) (str m) = false -> str n = str m /\ i = j).
  { intros n m i j H N M. apply show_inj; [| |exact H]; intros K.
    - rewrite (proj2 (existsb_exists _ _) (ex_intro _ 40 (conj K eq_refl))) in N. discriminate N.
    - rewrite (proj2 (existsb_exists _ _) (ex_intro _ 40 (conj K eq_refl))) in M. discriminate M. }
  split.
  - destruct f, g; cbn [frame_display_name same_type on_stream frame_stream_id]; intros H; apply P in H; try reflexivity; destruct H as [H E];
      try (exfalso; vm_compute in H; discriminate H); auto.
  - intros [T S]. destruct f, g; cbn [same_type] in T; try contradiction; cbn [frame_display_name]; cbn [on_stream frame_stream_id] in S; rewrite ?S; reflexivity.
Qed.
