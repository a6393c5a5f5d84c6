(** Lemmas on receiving control and DATA frames. *)
From Coq Require Import Ascii String NArith ZArith Lia Bool List ZifyBool ZifyNat ZifyN.
From Verif Require Import Base P_Base M_Hpack M_Frame M_H2 S_Frame S_H2Api P_Frame P_Settings.
Import ListNotations.
Local Open Scope N_scope.
Ltac Zify.zify_post_hook ::= Z.div_mod_to_equations.

Definition lift (rest : bytes) (r : hindex * res frame) : hindex * res (frame * bytes) :=
  (fst r, match snd r with Ok f => Ok (f, rest) | Err e => Err e | Panic => Panic | Diverge => Diverge end).

(** Receiving a well formed frame is parsing its payload. *)
Lemma recv_octets t max ty f id p rest : blen p < 16777216 -> id < 2147483648 -> defined_flags f ->
  recv t max (frame_octets ty f id p ++ rest) = lift rest (frame_parse t (mkFH (blen p) (kind_new ty) f id) p max).
Proof.
  intros L I D. assert (F : f < 256) by (destruct D as (a & b & c & d & ->); apply flags_of_lt).
  unfold recv, frame_octets. rewrite <- app_assoc, fh_parse_octets by lia. rewrite (proj2 (flag_new_iff f F) D).
  cbn [fh_length]. rewrite take_N_app by reflexivity. rewrite N.mod_small by exact I. unfold lift.
  destruct (frame_parse _ _ p max) as [t' []]; reflexivity.
Qed.

(** Without the PADDED bit the payload is parsed as it stands. *)
Lemma trim_unpadded h l : is_padded (fh_flag h) = false -> trim_padding h l = Ok l.
Proof. intros H. unfold trim_padding. rewrite H. reflexivity. Qed.

Lemma ack_defined : defined_flags ACK.
Proof. exists true, false, false, false. reflexivity. Qed.
Lemma zero_defined : defined_flags 0.
Proof. exists false, false, false, false. reflexivity. Qed.

(** ** SETTINGS *)
Lemma recv_settings t max s rest : legal_settings s ->
  recv t max (settings_encode s ++ rest) = (t, Ok (FSettings s, rest)).
Proof.
  intros (F & R & L). rewrite settings_encode_octets by exact R. rewrite F.
  pose proof (entries_of_length s). rewrite recv_octets; [|rewrite entries_blen; lia|lia|apply zero_defined].
  unfold lift, frame_parse. rewrite trim_unpadded by reflexivity. cbn [kind_new fh_kind fst snd]. unfold settings_parse. cbn [fh_kind fh_id fh_flag kind_eqb kind_encode N.eqb Pos.eqb negb].
  change (is_ack 0) with false. rewrite parse_setting_entries by exact R. apply forallb_legal in L. rewrite L.
  rewrite settings_of_entries by exact F. reflexivity.
Qed.
Lemma recv_settings_ack t max rest : recv t max (settings_encode settings_ack ++ rest) = (t, Ok (FSettings settings_ack, rest)).
Proof.
  change (settings_encode settings_ack) with (frame_octets 4 ACK 0 []). rewrite recv_octets; [reflexivity|reflexivity|reflexivity|apply ack_defined].
Qed.
Lemma settings_parse_exact h l s : fh_kind h = KSettings -> bytes_ok l ->
  (settings_parse h l = Ok s <->
   fh_id h = 0 /\
   (is_ack (fh_flag h) = true /\ l = [] /\ s = settings_ack \/
    is_ack (fh_flag h) = false /\
    exists es, l = concat (map entry_octets es) /\ Forall entry_range es /\ Forall entry_legal es /\ s = settings_of es)).
Proof.
  intros K B. unfold settings_parse. rewrite K. change (kind_eqb KSettings KSettings) with true. cbn [negb].
  destruct (N.eqb_spec (fh_id h) 0) as [I|I]; cbn [negb].
  - destruct (is_ack (fh_flag h)).
    + destruct l as [|x l].
      * split; [intros H; injection H as <-; auto|]. intros [_ [(_ & _ & ->)|[C _]]]; [reflexivity|discriminate C].
      * split; [discriminate|]. intros [_ [(_ & C & _)|[C _]]]; discriminate C.
    + cbv iota. rewrite parse_setting_exact by exact B. split; [auto|]. intros [_ [[C _]|[_ C]]]; [discriminate C|exact C].
  - split; [discriminate|]. intros [C _]. contradiction.
Qed.
Lemma settings_parse_err h l e : fh_kind h = KSettings -> bytes_ok l ->
  (settings_parse h l = Err e <->
   fh_id h <> 0 /\ e = EHttp2 InvalidStreamId \/
   fh_id h = 0 /\
   (is_ack (fh_flag h) = true /\ l <> [] /\ e = EHttp2 InvalidPayloadLength \/
    is_ack (fh_flag h) = false /\ blen l mod 6 <> 0 /\ e = EHttp2 InvalidPayloadLength \/
    is_ack (fh_flag h) = false /\
    exists es, l = concat (map entry_octets es) /\ Forall entry_range es /\ ~ Forall entry_legal es /\ e = EHttp2 InvalidSettingValue)).
Proof.
  intros K B. unfold settings_parse. rewrite K. change (kind_eqb KSettings KSettings) with true. cbn [negb].
  destruct (N.eqb_spec (fh_id h) 0) as [I|I]; cbn [negb].
  - destruct (is_ack (fh_flag h)).
    + destruct l as [|x l].
      * split; [discriminate|]. intros [[C _]|[_ [(_ & C & _)|[[C _]|[C _]]]]]; [contradiction|destruct C; reflexivity|discriminate C|discriminate C].
      * split; [|intros [[C _]|[_ [(_ & _ & ->)|[[C _]|[C _]]]]]; [contradiction|reflexivity|discriminate C|discriminate C]].
        intros H. injection H as <-. right. split; [exact I|]. left. split; [reflexivity|]. split; [discriminate|reflexivity].
    + cbv iota. rewrite parse_setting_err by exact B. split.
      * intros [H|H]; right; (split; [exact I|]); right; [left|right]; auto.
      * intros [[C _]|[_ [[C _]|[[_ H]|[_ H]]]]]; [contradiction|discriminate C|left; exact H|right; exact H].
  - split.
    + intros H. injection H as <-. auto.
    + intros [[_ ->]|[C _]]; [reflexivity|contradiction].
Qed.

(** ** PING, RST_STREAM, WINDOW_UPDATE, GOAWAY, PRIORITY *)
Lemma recv_ping t max p rest : blen (pg_payload p) = 8 -> recv t max (ping_encode p ++ rest) = (t, Ok (FPing p, rest)).
Proof.
  intros L. assert (E : ping_encode p = frame_octets 6 (if pg_ack p then ACK else 0) 0 (pg_payload p)).
  { unfold ping_encode, frame_octets. rewrite fh_encode_octets by lia. reflexivity. }
  rewrite E. clear E. destruct p as [a p]. cbn [pg_ack pg_payload] in *.
  rewrite recv_octets; [|lia|lia|destruct a; [apply ack_defined|apply zero_defined]].
  unfold lift, frame_parse. rewrite trim_unpadded by (destruct a; reflexivity). cbn [kind_new fh_kind fst snd].
  unfold ping_parse. cbn [fh_kind fh_id fh_flag kind_eqb kind_encode N.eqb Pos.eqb negb]. rewrite L.
  destruct a; reflexivity.
Qed.
Lemma recv_reset t max r rest : rs_id r < 2147483648 -> rs_code r < 4294967296 ->
  recv t max (reset_encode r ++ rest) = (t, Ok (FReset r, rest)).
Proof.
  intros I C. assert (E : reset_encode r = frame_octets 3 0 (rs_id r) (octets4 (rs_code r))).
  { unfold reset_encode, frame_octets. rewrite fh_encode_octets, be_enc_4 by lia. reflexivity. }
  rewrite E. rewrite recv_octets; [|reflexivity|exact I|apply zero_defined]. unfold lift, frame_parse.
  rewrite trim_unpadded by reflexivity. cbn [kind_new fh_kind fst snd]. unfold reset_parse. change (negb (blen (octets4 (rs_code r)) =? 4)) with false.
  rewrite <- (app_nil_r (octets4 _)), get_octets4 by exact C. destruct r. reflexivity.
Qed.
Lemma recv_winupd t max w rest : wu_id w < 2147483648 -> 1 <= wu_inc w < 2147483648 ->
  recv t max (winupd_encode w ++ rest) = (t, Ok (FWindowUpdate w, rest)).
Proof.
  intros I C. assert (E : winupd_encode w = frame_octets 8 0 (wu_id w) (octets4 (wu_inc w))).
  { unfold winupd_encode, frame_octets. rewrite fh_encode_octets, be_enc_4 by lia. reflexivity. }
  rewrite E. rewrite recv_octets; [|reflexivity|exact I|apply zero_defined]. unfold lift, frame_parse.
  rewrite trim_unpadded by reflexivity. cbn [kind_new fh_kind fst snd]. unfold winupd_parse. cbn [fh_kind kind_eqb kind_encode N.eqb Pos.eqb negb]. change (negb (blen (octets4 (wu_inc w)) =? 4)) with false.
  rewrite <- (app_nil_r (octets4 _)), get_octets4 by lia. cbn [bind]. rewrite ldiff_high by lia. rewrite N.mod_small by lia.
  destruct (N.eqb_spec (wu_inc w) 0); [lia|]. destruct w. reflexivity.
Qed.
Lemma recv_goaway t max g rest : ga_last g < 2147483648 -> ga_code g < 4294967296 -> blen (ga_debug g) + 8 < 16777216 ->
  recv t max (goaway_encode g ++ rest) = (t, Ok (FGoAway g, rest)).
Proof.
  intros I C L. assert (E : goaway_encode g = frame_octets 7 0 0 (octets4 (ga_last g) ++ octets4 (ga_code g) ++ ga_debug g)).
  { unfold goaway_encode, frame_octets. rewrite !fh_encode_octets, !be_enc_4 by lia. rewrite !blen_app.
    change (blen (octets4 (ga_last g)) + (blen (octets4 (ga_code g)) + blen (ga_debug g))) with (4 + (4 + blen (ga_debug g))).
    replace (4 + (4 + blen (ga_debug g))) with (8 + blen (ga_debug g)) by lia. reflexivity. }
  assert (P : blen (octets4 (ga_last g) ++ octets4 (ga_code g) ++ ga_debug g) = 8 + blen (ga_debug g)).
  { rewrite !blen_app. change (4 + (4 + blen (ga_debug g)) = 8 + blen (ga_debug g)). lia. }
  rewrite E. rewrite recv_octets; [|lia|lia|apply zero_defined]. unfold lift, frame_parse.
  rewrite trim_unpadded by reflexivity. cbn [kind_new fh_kind fst snd]. unfold goaway_parse. rewrite P.
  destruct (N.ltb_spec (8 + blen (ga_debug g)) 8); [lia|]. unfold stream_parse. rewrite read_u31_octets by lia. rewrite get_octets4 by lia.
  rewrite N.mod_small by exact I. destruct g. reflexivity.
Qed.

(** Exact outcomes of the payload parsers. *)
Lemma four l : bytes_ok l -> blen l = 4 -> exists v, v < 4294967296 /\ l = octets4 v.
Proof.
  intros B L. unfold blen in L. destruct l as [|a [|b [|c [|d [|e l]]]]]; cbn [length] in L; try lia.
  repeat (apply bytes_ok_cons in B as [? B]). destruct (octets4_of a b c d) as (v & V & E); [assumption..|]. exists v. auto.
Qed.
Lemma octets4_inj v w : v < 4294967296 -> w < 4294967296 -> octets4 v = octets4 w -> v = w.
Proof. intros V W E. rewrite <- (be_dec_octets4 v V), <- (be_dec_octets4 w W), E. reflexivity. Qed.
Lemma four_more l : bytes_ok l -> 4 <= blen l -> exists v r, v < 4294967296 /\ l = octets4 v ++ r /\ bytes_ok r.
Proof.
  intros B L. unfold blen in L. destruct l as [|a [|b [|c [|d l]]]]; cbn [length] in L; try lia.
  repeat (apply bytes_ok_cons in B as [? B]). destruct (octets4_of a b c d) as (v & V & E); [assumption..|]. exists v, l. rewrite <- E. auto.
Qed.

Lemma ping_outcome h l : fh_kind h = KPing -> ping_parse h l =
  if negb (fh_id h =? 0) then Err (EHttp2 InvalidStreamId)
  else if blen l =? 8 then Ok (mkPing (is_ack (fh_flag h)) l) else Err (EHttp2 BadFrameSize).
Proof. intros K. unfold ping_parse. rewrite K. change (kind_eqb KPing KPing) with true. cbn [negb]. destruct (fh_id h =? 0), (blen l =? 8); reflexivity. Qed.
Lemma reset_exact h l : bytes_ok l ->
  (forall r, reset_parse h l = Ok r <-> exists code, code < 4294967296 /\ l = octets4 code /\ r = mkReset (fh_id h) code) /\
  (blen l <> 4 -> reset_parse h l = Err (EHttp2 InvalidPayloadLength)).
Proof.
  intros B. unfold reset_parse. split.
  - intros r. destruct (N.eqb_spec (blen l) 4) as [L|L]; cbn [negb].
    + destruct (four l B L) as (v & V & ->). rewrite <- (app_nil_r (octets4 v)), get_octets4, app_nil_r by exact V. cbn [bind]. split.
      * intros H. injection H as <-. exists v. auto.
      * intros (c & C & E & ->). apply octets4_inj in E; [|assumption..]. congruence.
    + split; [discriminate|]. intros (c & _ & -> & _). destruct L. reflexivity.
  - intros L. destruct (N.eqb_spec (blen l) 4); [contradiction|reflexivity].
Qed.
Lemma winupd_exact h l : fh_kind h = KWindowUpdate -> bytes_ok l ->
  (forall w, winupd_parse h l = Ok w <->
     exists r inc, r <= 1 /\ 1 <= inc < 2147483648 /\ l = octets4 (r * 2147483648 + inc) /\ w = mkWin (fh_id h) inc) /\
  (blen l <> 4 -> winupd_parse h l = Err (EHttp2 BadFrameSize)) /\
  (forall r, r <= 1 -> l = octets4 (r * 2147483648) -> winupd_parse h l = Err (EHttp2 InvalidWindowUpdateValue)).
Proof.
  intros K B. unfold winupd_parse. rewrite K. change (kind_eqb KWindowUpdate KWindowUpdate) with true. cbn [negb].
  assert (G : forall v, v < 4294967296 ->
    (' (v, _) <- get 4 (octets4 v) ;; let inc := N.ldiff v (2 ^ 31) in
       if inc =? 0 then Err (EHttp2 InvalidWindowUpdateValue) else Ok (mkWin (fh_id h) inc)) =
    if v mod 2147483648 =? 0 then Err (EHttp2 InvalidWindowUpdateValue) else Ok (mkWin (fh_id h) (v mod 2147483648))).
  { intros v V. rewrite <- (app_nil_r (octets4 v)), get_octets4 by exact V. cbn [bind]. rewrite ldiff_high by exact V. reflexivity. }
  split; [|split].
  - intros w. destruct (N.eqb_spec (blen l) 4) as [L|L]; cbn [negb].
    + destruct (four l B L) as (v & V & ->). rewrite G by exact V. destruct (N.eqb_spec (v mod 2147483648) 0) as [Z|Z].
      * split; [discriminate|]. intros (r & inc & R & I & E & _). apply octets4_inj in E; [|lia..]. lia.
      * split.
        -- intros H. injection H as <-. exists (v / 2147483648), (v mod 2147483648). split; [lia|]. split; [lia|]. split; [|reflexivity].
           f_equal. lia.
        -- intros (r & inc & R & I & E & ->). apply octets4_inj in E; [|lia..]. subst v. do 2 f_equal. lia.
    + split; [discriminate|]. intros (r & inc & _ & _ & -> & _). destruct L. reflexivity.
  - intros L. destruct (N.eqb_spec (blen l) 4); [contradiction|reflexivity].
  - intros r R ->. change (negb (blen (octets4 (r * 2147483648)) =? 4)) with false. cbv iota. rewrite G by lia.
    destruct (N.eqb_spec (r * 2147483648 mod 2147483648) 0); [reflexivity|lia].
Qed.
Lemma goaway_exact l : bytes_ok l ->
  (forall g, goaway_parse l = Ok g <->
     exists r, r <= 1 /\ ga_last g < 2147483648 /\ ga_code g < 4294967296 /\
       l = octets4 (r * 2147483648 + ga_last g) ++ octets4 (ga_code g) ++ ga_debug g) /\
  (blen l < 8 -> goaway_parse l = Err (EHttp2 BadFrameSize)).
Proof.
  intros B. unfold goaway_parse. split.
  - intros g. destruct (N.ltb_spec (blen l) 8) as [L|L].
    + split; [discriminate|]. intros (r & _ & _ & _ & ->). rewrite !blen_app in L. change (blen (octets4 _)) with 4 in L. change (blen (octets4 _)) with 4 in L. lia.
    + destruct (four_more l B) as (v & l1 & V & -> & B1); [lia|]. rewrite blen_app in L. change (blen (octets4 v)) with 4 in L.
      destruct (four_more l1 B1) as (c & l2 & C & -> & B2); [lia|]. unfold stream_parse. rewrite read_u31_octets by exact V. rewrite get_octets4 by exact C. cbn [bind].
      split.
      * intros H. injection H as <-. cbn [ga_last ga_code ga_debug]. exists (v / 2147483648). split; [lia|]. split; [lia|]. split; [exact C|].
        f_equal. f_equal. lia.
      * intros (r & R & I & C' & E). destruct g as [gl gc gd]. cbn [ga_last ga_code ga_debug] in *.
        assert (E1 : octets4 v = octets4 (r * 2147483648 + gl)) by (apply (f_equal (firstn 4)) in E; exact E).
        assert (E2 : octets4 c = octets4 gc) by (apply (f_equal (fun l => firstn 4 (skipn 4 l))) in E; exact E).
        assert (E3 : l2 = gd) by (apply (f_equal (skipn 8)) in E; exact E).
        apply octets4_inj in E1; [|lia..]. apply octets4_inj in E2; [|lia..]. subst. do 2 f_equal. lia.
  - intros L. destruct (N.ltb_spec (blen l) 8); [reflexivity|lia].
Qed.
Lemma dep_load_exact v w l : v < 4294967296 ->
  dep_load (octets4 v ++ w :: l) = Ok (mkDep (v mod 2147483648) w (2147483648 <=? v), l).
Proof.
  intros V. unfold dep_load. rewrite blen_app, blen_cons. change (blen (octets4 v)) with 4.
  destruct (N.ltb_spec (4 + (1 + blen l)) 5) as [C|_]; [lia|]. rewrite get_octets4 by exact V. cbn [bind]. rewrite get_1. cbn [bind]. rewrite land_u31.
  do 3 f_equal. destruct (N.leb_spec 2147483648 v); destruct (N.eqb_spec (v - v mod 2147483648) 0); cbn [negb]; (reflexivity || lia).
Qed.
Lemma dep_load_short l : blen l < 5 -> dep_load l = Err (EHttp2 InvalidPayloadLength).
Proof. intros L. unfold dep_load. destruct (N.ltb_spec (blen l) 5); [reflexivity|lia]. Qed.
Lemma priority_exact h l : bytes_ok l ->
  (forall p, priority_parse h l = Ok p <->
     exists (excl : bool) dep w junk, dep < 2147483648 /\ w < 256 /\ dep <> fh_id h /\
       l = octets4 ((if excl then 2147483648 else 0) + dep) ++ [w] ++ junk /\ p = mkPriority (fh_id h) (mkDep dep w excl)) /\
  (blen l < 5 -> priority_parse h l = Err (EHttp2 InvalidPayloadLength)).
Proof.
  intros B. unfold priority_parse. split.
  - intros p. split.
    + intros H. destruct (N.ltb_spec (blen l) 5) as [L|L]; [rewrite dep_load_short in H by exact L; discriminate|].
      destruct (four_more l B) as (v & r & V & -> & Br); [lia|]. rewrite blen_app in L. change (blen (octets4 v)) with 4 in L.
      destruct r as [|w r]; [rewrite blen_nil in L; lia|]. rewrite dep_load_exact in H by exact V. cbn [bind dp_id] in H.
      destruct (N.eqb_spec (v mod 2147483648) (fh_id h)) as [E|E]; [discriminate|]. injection H as <-.
      apply bytes_ok_cons in Br as [W _].
      exists (2147483648 <=? v), (v mod 2147483648), w, r. split; [lia|]. split; [exact W|]. split; [exact E|]. split; [|reflexivity].
      f_equal. f_equal. destruct (N.leb_spec 2147483648 v); lia.
    + intros (excl & dep & w & junk & D & W & E & -> & ->). cbn [app]. rewrite dep_load_exact by (destruct excl; lia). cbn [bind dp_id].
      replace (((if excl then 2147483648 else 0) + dep) mod 2147483648) with dep by (destruct excl; lia).
      rewrite (proj2 (N.eqb_neq _ _) E). do 3 f_equal. destruct excl; lia.
  - intros L. rewrite dep_load_short by exact L. reflexivity.
Qed.

(** ** Stream identifiers *)
Lemma next_id_ok s : s + 2 < 4294967296 -> next_id s = Ok (s, s + 2).
Proof. intros H. unfold next_id. change (2 ^ 32) with 4294967296. rewrite (proj2 (N.ltb_lt _ _) H). reflexivity. Qed.
