(** Proofs about how much a receiver can be made to keep (C138). *)
From Coq Require Import Ascii String NArith ZArith Lia Bool List ZifyBool ZifyNat ZifyN.
From Verif Require Import Base P_Base M_Std M_Helper M_Header M_Url M_Http1 S_Http1 S_Http1Api P_Http1 P_Msg S_Stream P_Stream M_Ws S_Ws S_WsApi P_Ws S_WsAll P_WsAll S_WsTalk P_WsHops
  M_Hpack M_Frame M_H2 S_Frame P_Frame S_H2Api S_Packets P_Packets S_Net P_Net S_Keep.
Import ListNotations.
Local Open Scope N_scope.

Section Keep.
  Context {S A : Type} (step : S -> bytes -> attempt S A) (ST : steady step).
  Lemma keep_wait s l : bytes_ok l -> step s l = Wait -> can_keep step s (blen l).
  Proof.
    intros B W. exists [l], [], s, l. cbn [concat]. rewrite app_nil_r. split; [exact B|]. split; [|reflexivity].
    cbn [feed app]. rewrite (all_wait step s l W). reflexivity.
  Qed.
  Lemma keep_some s n : can_keep step s n -> exists s' l, bytes_ok l /\ step s' l = Wait /\ blen l = n.
  Proof.
    intros (ps & got & s' & k & B & F & L). rewrite (feed_all step ST) in F by (try apply (st_none _ ST); exact B). cbn [app] in F.
    destruct (open_kept step ST (concat ps) s s' k B) as [Bk W]; [rewrite F; reflexivity|]. exists s', k. auto.
  Qed.
  Lemma wait_front s a b : bytes_ok (a ++ b) -> step s (a ++ b) = Wait -> step s a = Wait.
  Proof.
    intros B W. assert (Ba : bytes_ok a) by (apply bytes_split in B; apply B). destruct (step s a) as [|s' x r|e] eqn:E; [reflexivity| |].
    - rewrite (st_give _ ST _ _ _ _ _ b Ba E) in W. discriminate.
    - rewrite (st_stop _ ST _ _ _ b B E) in W. discriminate.
  Qed.
  Lemma keep_less s l n : bytes_ok l -> step s l = Wait -> n <= blen l -> can_keep step s n.
  Proof.
    intros B W L. rewrite <- (firstn_skipn (N.to_nat n) l) in B, W. pose proof (wait_front _ _ _ B W) as K. apply bytes_split in B as [B _].
    replace n with (blen (firstn (N.to_nat n) l)) by (unfold blen in *; rewrite firstn_length; lia). apply keep_wait; assumption.
  Qed.
End Keep.

Lemma bytes_repeat b n : b < 256 -> bytes_ok (repeat b n).
Proof. intros B. apply Forall_forall. intros x I. apply repeat_spec in I. subst x. exact B. Qed.
Lemma blen_repeat (b : N) n : blen (repeat b n) = N.of_nat n.
Proof. unfold blen. rewrite repeat_length. reflexivity. Qed.

(** ** HTTP/2 *)
Lemma h2_wait_less L t l : bytes_ok l -> h2_step L t l = Wait -> blen l <= 2 ^ 24 + 7.
Proof.
  intros B W. unfold h2_step in W. destruct (complete_frame l) eqn:C; [destruct (recv t L l) as [t' [[f r]|e| |]]; discriminate|]. unfold complete_frame in C.
  destruct (N.ltb_spec (blen l) 9); [lia|]. destruct (fh_parse l) as [[h r]| | |] eqn:F; try discriminate. destruct (take_N (fh_length h) r) as [p|] eqn:T; [discriminate|].
  apply take_N_none in T. apply (fh_parse_exact l h r B) in F as (len & ty & f & r0 & id & -> & Hl & _ & _ & _ & _ & El & _). rewrite blen_app. change (blen (header_octets _ _ _ _)) with 9. lia.
Qed.
Lemma h2_wait_most L t : exists l, bytes_ok l /\ h2_step L t l = Wait /\ blen l = 2 ^ 24 + 7.
Proof.
  assert (K : exists k, N.of_nat k = 16777214) by (exists (N.to_nat 16777214); apply Nnat.N2Nat.id). destruct K as (k & K).
  assert (LK : blen (header_octets 16777215 0 0 1 ++ repeat 0 k) = 16777223).
  { rewrite blen_app, blen_repeat. change (blen (header_octets 16777215 0 0 1)) with 9. rewrite K. reflexivity. }
  exists (header_octets 16777215 0 0 1 ++ repeat 0 k). split; [|split].
  - apply bytes_split. split; [apply bytes_okb_ok; reflexivity|apply bytes_repeat; reflexivity].
  - unfold h2_step. replace (complete_frame _) with false; [reflexivity|]. symmetry. unfold complete_frame. rewrite LK. change (16777223 <? 9) with false. cbv iota.
    rewrite fh_parse_octets by reflexivity. change (flag_new 0) with (Some 0). cbn [fh_length].
    rewrite (proj2 (take_N_none 16777215 (repeat 0 k))); [reflexivity|]. rewrite blen_repeat, K. reflexivity.
  - exact LK.
Qed.

(** ** WebSocket *)
Lemma ext_size n : blen (spec_ext n) + 6 = header_size n.
Proof. unfold spec_ext, header_size. destruct (n <? 126); [reflexivity|]. destruct (n <? 65536); reflexivity. Qed.
Lemma size_up a b : a <= b -> header_size a + a <= header_size b + b.
Proof. intros L. unfold header_size. destruct (N.ltb_spec a 126), (N.ltb_spec b 126), (N.ltb_spec a 65536), (N.ltb_spec b 65536); lia. Qed.
Lemma frame_wait_less limit s l : bytes_ok l -> frame_step limit s l = Wait -> blen l <= most (payload_limit limit).
Proof.
  intros B W. assert (K : read_limited limit l = Err more_data).
  { destruct (frame_cases4 limit s l) as [[K _]|[K W']]; [exact K|]. rewrite W in W'. destruct (limited_total limit l) as [(d & r & E)|(e & E)]; rewrite E in W'; discriminate. }
  apply (limited_err limit l _ B) in K. unfold most. inversion K as [l0 e0 H|lim fin r1 r2 r3 op key n r E|fin r1 r2 r3 op key n x Hl Hn Ho Hc Hk Hx]; subst.
  - enough (blen l <= 13) by lia. inversion H; subst; unfold blen; cbn [length]; try lia. unfold lead. rewrite app_length, app_length.
    pose proof (ext_size n) as Q. unfold header_size, blen in Q. cbn [length]. destruct (n <? 126); [lia|]. destruct (n <? 65536); lia.
  - assert (P : n <= payload_limit limit) by (unfold payload_limit; destruct limit as [lim|]; [specialize (Hl lim eq_refl); lia|lia]). apply size_up in P.
    pose proof (ext_size n) as Q. rewrite blen_app. unfold spec_header. rewrite !blen_app. 
    change (blen [_; _]) with 2. unfold bytes in *. destruct key as [[[[a b] c] d]|]; [change (blen [a; b; c; d]) with 4|change (blen []) with 0]; lia.
Qed.
Lemma bad_waits limit s l : bytes_ok l -> frame_bad limit l more_data -> frame_step limit s l = Wait.
Proof.
  intros B K. apply (limited_err limit l _ B) in K. destruct (frame_cases4 limit s l) as [[_ W]|[N _]]; [exact W|contradiction].
Qed.
Lemma frame_wait_most limit s : exists l, bytes_ok l /\ frame_step limit s l = Wait /\ blen l = most (payload_limit limit).
Proof.
  unfold most. set (p := payload_limit limit). destruct (N.le_gt_cases (header_size p + p - 1) 13) as [L|L].
  - exists (lead false false false false 2 true 65536 ++ [0; 0; 0]). assert (B : bytes_ok (lead false false false false 2 true 65536 ++ [0; 0; 0])) by (apply bytes_okb_ok; reflexivity).
    split; [exact B|]. split; [|rewrite N.max_l by exact L; reflexivity]. apply bad_waits; [exact B|]. apply fb_head, hb_key; [reflexivity|reflexivity|intros K; lia|cbn; lia].
  - assert (Hp : p < 2 ^ 64) by (unfold p, payload_limit; destruct limit; lia).
    assert (P1 : 1 <= p). { destruct (N.eq_dec p 0) as [E|E]; [|lia]. rewrite E in L. vm_compute in L. discriminate L. }
    exists (spec_header false false false false 2 (Some (0, 0, 0, 0)) p ++ repeat 0 (N.to_nat (p - 1))).
    assert (B : bytes_ok (spec_header false false false false 2 (Some (0, 0, 0, 0)) p ++ repeat 0 (N.to_nat (p - 1)))).
    { apply bytes_split. split; [apply header_bytes; [reflexivity|exact Hp|cbn; lia]|apply bytes_repeat; reflexivity]. }
    split; [exact B|]. split.
    + apply bad_waits; [exact B|]. apply fb_data; [|exact Hp|reflexivity|intros K; lia|cbn; lia|rewrite blen_repeat; lia].
      intros lim E. unfold p, payload_limit. rewrite E. lia.
    + rewrite blen_app, blen_repeat. unfold spec_header. rewrite !blen_app. pose proof (ext_size p). change (blen [_; _]) with 2. change (blen [_; _; _; _]) with 4. lia.
Qed.

(** ** HTTP/1 *)
Definition letters (n : N) : bytes := repeat 97 (N.to_nat n).
Definition long_fields (n : N) : list (bytes * bytes) := [(str "a", letters n)].
Lemma letters_ok n : value_ok (letters n).
Proof.
  unfold letters. split; [apply bytes_repeat; reflexivity|]. split; [intros I; apply repeat_spec in I; discriminate|]. destruct (N.to_nat n); discriminate.
Qed.
Lemma long_fields_ok n : fields_ok (long_fields n) /\ distinct_names (long_fields n).
Proof.
  split; [constructor; [|constructor]; split; [apply name_okb_ok; reflexivity|apply letters_ok]|]. cbn. split; [constructor|exact Logic.I].
Qed.
Definition long_request (n : N) : bytes := request_text (method_str MGet) [47] (version_str V11) (long_fields n).
Definition long_response (n : N) : bytes := response_text (version_str V11) (status_str 200) (str "OK") (long_fields n).
Lemma long_request_parsed n q : exists u, req_parse q (long_request n) = (mkReq MGet V11 u (long_fields n) false, Ok (blen (long_request n))).
Proof.
  destruct (long_fields_ok n) as [F D]. eexists. rewrite <- (app_nil_r (long_request n)) at 1. unfold long_request. apply request_accept; try assumption.
  - cbn; tauto.
  - cbn; tauto.
  - split; [discriminate|]. constructor; [|constructor]. unfold vchar. lia.
  - apply wire_url_spec. cbv - [letters]. reflexivity.
Qed.
Lemma long_response_parsed n q : resp_parse q (long_response n) = (mkResp 200 V11 (long_fields n) false, Ok (blen (long_response n))).
Proof.
  destruct (long_fields_ok n) as [F D]. rewrite <- (app_nil_r (long_response n)) at 1. unfold long_response. apply response_accept; try assumption.
  - cbn; tauto.
  - lia.
  - split; [discriminate|]. split; [|discriminate]. vm_compute (str _). repeat (apply Forall_cons; [lia|]). apply Forall_nil.
Qed.
Lemma long_bytes n : bytes_ok (long_request n) /\ bytes_ok (long_response n) /\ n < blen (long_request n) /\ n < blen (long_response n).
Proof.
  assert (L : bytes_ok (letters n)) by apply letters_ok. assert (E : blen (letters n) = n) by (unfold letters; rewrite blen_repeat; lia).
  unfold long_request, long_response, request_text, response_text, fields_text, long_fields. cbn [map concat]. unfold field_text. cbn [fst snd]. rewrite app_nil_r.
  split; [|split].
  - repeat (apply bytes_split; split); try (apply bytes_okb_ok; reflexivity). exact L.
  - repeat (apply bytes_split; split); try (apply bytes_okb_ok; reflexivity). exact L.
  - rewrite !blen_app, E. change (blen [SP]) with 1. lia.
Qed.
Lemma cut_waits {A} (parse : bytes -> res (A * N)) header (ST : steady (message_step parse header)) w a b n :
  bytes_ok w -> parse w = Ok (a, blen w) -> read_body (header a) [] = Ok (b, []) -> n < blen w -> (forall p s, w = p ++ s -> blen p < blen w -> parse p = partial) ->
  exists l x, bytes_ok (l ++ x) /\ blen l = n /\ feed (message_step parse header) (Open tt []) [l] = ([], Open tt l) /\
    feed (message_step parse header) (Open tt []) [l; x] = ([(a, b)], Open tt []).
Proof.
  intros B P R L C. exists (firstn (N.to_nat n) w), (skipn (N.to_nat n) w). rewrite firstn_skipn. split; [exact B|].
  assert (E : blen (firstn (N.to_nat n) w) = n) by (unfold blen in *; rewrite firstn_length; lia). split; [exact E|].
  assert (W : message_step parse header tt (firstn (N.to_nat n) w) = Wait).
  { unfold message_step, read_message. rewrite (C _ (skipn (N.to_nat n) w)); [reflexivity|symmetry; apply firstn_skipn|rewrite E; exact L]. }
  split; [cbn [feed app]; rewrite (all_wait _ _ _ W); reflexivity|]. rewrite (feed_all _ ST) by (try apply (st_none _ ST); cbn [concat app]; rewrite app_nil_r, firstn_skipn; exact B).
  cbn [concat app]. rewrite app_nil_r, firstn_skipn.
  assert (G : message_step parse header tt w = Give tt (a, b) []).
  { unfold message_step, read_message. rewrite P. cbn [bind]. replace (skipn (N.to_nat (blen w)) w) with (@nil N) by (unfold blen; rewrite Nnat.Nat2N.id, skipn_all; reflexivity). rewrite R. reflexivity. }
  rewrite (all_give _ ST _ _ _ _ _ B G). rewrite (all_wait _ tt []) by apply (st_none _ ST). reflexivity.
Qed.

(** ** Fragments of one message *)
Lemma piece_taken limit p op r : (forall lim, limit = Some lim -> 1 <= lim) -> op < 8 ->
  exists d, talk_step limit p (spec_frame false false false false op None [97] ++ r) = Give (p ++ [d]) [] r /\ d_data d = [97] /\ d_fin d = false /\ opcode_u8 (d_op d) = op /\ d_rsv d = (false, false, false).
Proof.
  intros L O. destruct (key_ok_read limit false false false false op None [97] r) as (d & R & F & V & E & D); [lia|exact Logic.I|reflexivity|exact L|intros K; lia|]. exists d.
  split; [|repeat split; assumption]. unfold talk_step, frame_step. fold (read_limited limit (spec_frame false false false false op None [97] ++ r)).
  replace (read_limited limit (spec_frame false false false false op None [97] ++ r)) with (Ok (d, r)) by (symmetry; destruct limit; exact R).
  unfold ws_take. rewrite E, F. destruct (N.leb_spec 8 op); [lia|]. reflexivity.
Qed.
Definition pieces (n : nat) : bytes := concat (repeat (spec_frame false false false false 0 None [97]) n).
Lemma pieces_bytes n : bytes_ok (pieces n).
Proof. induction n as [|n IH]; [constructor|]. unfold pieces. cbn [repeat concat]. apply bytes_split. split; [apply bytes_okb_ok; reflexivity|exact IH]. Qed.
Lemma pieces_taken limit n : (forall lim, limit = Some lim -> 1 <= lim) -> forall p,
  exists got ds, all (talk_step limit) p (pieces n) = (got, Open (p ++ ds) []) /\ concat got = [] /\ concat (map d_data ds) = repeat 97 n /\ length ds = n /\ Forall (fun d => d_fin d = false /\ opcode_u8 (d_op d) = 0 /\ d_rsv d = (false, false, false)) ds.
Proof.
  intros L. induction n as [|n IH]; intros p.
  - exists [], []. rewrite app_nil_r. unfold pieces. cbn [repeat concat]. rewrite (all_wait (talk_step limit) p []) by apply (st_none _ (talk_steady limit)). repeat split. constructor.
  - destruct (piece_taken limit p 0 (pieces n) L ltac:(lia)) as (d & T & D & F & O & V). destruct (IH (p ++ [d])) as (got & ds & A & G & C & Ln & Fa).
    exists ([] :: got), (d :: ds). pose proof (pieces_bytes (Datatypes.S n)) as B. unfold pieces in B |- *. cbn [repeat concat] in B |- *. fold (pieces n) in B |- *.
    rewrite (all_give (talk_step limit) (talk_steady limit) _ _ _ _ _ B T). rewrite A. cbn [fst snd map concat app length]. rewrite D, C, G, <- app_assoc. cbn [app]. repeat split; auto.
Qed.
Lemma fragments_taken limit n : (forall lim, limit = Some lim -> 1 <= lim) ->
  exists w got ds, bytes_ok w /\ all (talk_step limit) [] w = (got, Open ds []) /\ concat got = [] /\ blen (concat (map d_data ds)) = N.succ n /\
    exists d r, ds = d :: r /\ opcode_u8 (d_op d) = 2 /\ Forall (fun d => d_rsv d = (false, false, false) /\ d_fin d = false) ds /\ Forall (fun d => opcode_u8 (d_op d) = 0) r.
Proof.
  intros L. destruct (piece_taken limit [] 2 (pieces (N.to_nat n)) L ltac:(lia)) as (d & T & D & F & O & V). destruct (pieces_taken limit (N.to_nat n) L [d]) as (got & ds & A & G & C & Ln & Fa).
  assert (B : bytes_ok (spec_frame false false false false 2 None [97] ++ pieces (N.to_nat n))) by (apply bytes_split; split; [apply bytes_okb_ok; reflexivity|apply pieces_bytes]).
  exists (spec_frame false false false false 2 None [97] ++ pieces (N.to_nat n)), ([] :: got), (d :: ds). split; [exact B|].
  rewrite (all_give (talk_step limit) (talk_steady limit) _ _ _ _ _ B T). cbn [app] in A |- *. rewrite A. cbn [fst snd map concat app]. split; [reflexivity|]. split; [exact G|].
  split; [rewrite D, C, blen_app, blen_repeat; change (blen [97]) with 1; lia|].
  exists d, ds. repeat split; auto; [constructor; auto|]; (eapply Forall_impl; [|exact Fa]); intros x (X1 & X2 & X3); auto.
Qed.
