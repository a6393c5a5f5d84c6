(** Lemmas on DATA frames, padding and the totality of Frame::parse. *)
From Coq Require Import Ascii String NArith ZArith Lia Bool List ZifyBool ZifyNat ZifyN.
From Verif Require Import Base P_Base M_Header M_Url M_Http1 M_Hpack M_Frame M_H2 S_Frame S_H2Api P_Frame P_Settings P_Ctl.
Import ListNotations.
Local Open Scope N_scope.
Ltac Zify.zify_post_hook ::= Z.div_mod_to_equations.

Lemma frame_octets_data f id c : blen c < 16777216 -> id < 4294967296 ->
  fh_encode (mkFH (blen c) KData f id) ++ c = frame_octets 0 f id c.
Proof. intros L I. rewrite fh_encode_octets by assumption. reflexivity. Qed.

Lemma data_loop_split max id f : 0 < max < 16777216 -> id < 4294967296 -> forall fuel l, (length l < fuel)%nat ->
  exists chunks last, data_loop fuel max id f l =
    Ok (concat (map (frame_octets 0 (unset_end_stream f) id) chunks) ++ frame_octets 0 f id last) /\
    concat chunks ++ last = l /\ Forall (fun c => blen c = max) chunks /\ blen last <= max /\ (l <> [] -> last <> []).
Proof.
  intros M I. induction fuel as [|fuel IH]; intros l L; [lia|]. cbn [data_loop].
  destruct (N.ltb_spec (N.min (blen l) max) (blen l)) as [A|A].
  - assert (E : N.min (blen l) max = max) by lia. rewrite E in *.
    assert (F : blen (firstn (N.to_nat max) l) = max).
    { unfold blen in *. rewrite firstn_length. lia. }
    destruct (IH (skipn (N.to_nat max) l)) as (cs & la & H & C & Fa & La & Ne).
    { rewrite skipn_length. unfold blen in A. lia. }
    rewrite H. cbn [bind]. exists (firstn (N.to_nat max) l :: cs), la. split; [|split; [|split; [|split]]].
    + cbn [map concat]. rewrite <- (frame_octets_data _ _ (firstn _ l)) by lia. rewrite F, <- !app_assoc. reflexivity.
    + cbn [concat]. rewrite <- app_assoc, C. apply firstn_skipn.
    + constructor; assumption.
    + exact La.
    + intros _. apply Ne. intros Z. apply (f_equal (@length N)) in Z. rewrite skipn_length in Z. cbn [length] in Z. unfold blen in A. lia.
  - assert (E : N.min (blen l) max = blen l) by lia. rewrite E. exists [], l. cbn [map concat app].
    split; [rewrite frame_octets_data by lia; reflexivity|]. split; [reflexivity|]. split; [constructor|]. split; [lia|auto].
Qed.
Lemma data_split max d : 0 < max < 16777216 -> da_id d < 4294967296 ->
  exists chunks last, data_encode max d =
    Ok (concat (map (frame_octets 0 (unset_end_stream (da_flags d)) (da_id d)) chunks) ++ frame_octets 0 (da_flags d) (da_id d) last) /\
    concat chunks ++ last = da_data d /\ Forall (fun c => blen c = max) chunks /\ blen last <= max /\ (da_data d <> [] -> last <> []).
Proof. intros M I. apply data_loop_split; [exact M|exact I|lia]. Qed.

Lemma recv_data t L f id c rest : blen c < 16777216 -> 0 < id < 2147483648 -> defined_flags f -> is_padded f = false ->
  recv t L (frame_octets 0 f id c ++ rest) = (t, Ok (FData (mkData id c f), rest)).
Proof.
  intros B I D P. rewrite recv_octets by (exact D || lia). unfold lift, frame_parse. rewrite trim_unpadded by exact P.
  cbn [kind_new fh_kind fst snd]. unfold data_new. cbn [fh_id fh_flag]. destruct (N.eqb_spec id 0); [lia|reflexivity].
Qed.
Lemma unset_defined f : defined_flags f -> defined_flags (unset_end_stream f) /\ is_padded (unset_end_stream f) = is_padded f /\
  is_end_stream (unset_end_stream f) = false.
Proof.
  intros (a & b & c & d & ->). destruct (flags_of_view a b c d) as (_ & _ & _ & P & _ & _ & _ & U). rewrite U, P.
  destruct (flags_of_view false b c d) as (E & _ & _ & P' & _). rewrite E, P'. split; [exists false, b, c, d; reflexivity|auto].
Qed.
Lemma received_data L t f id last cs : 0 < id < 2147483648 -> defined_flags f -> is_padded f = false ->
  Forall (fun c => blen c < 16777216) cs -> blen last < 16777216 ->
  received L t (concat (map (frame_octets 0 (unset_end_stream f) id) cs) ++ frame_octets 0 f id last) t
    (map (fun c => FData (mkData id c (unset_end_stream f))) cs ++ [FData (mkData id last f)]).
Proof.
  intros I D P F La. destruct (unset_defined f D) as (D' & P' & _). rewrite P in P'. induction F as [|c cs Hc _ IH]; cbn [map concat app].
  - rewrite <- (app_nil_r (frame_octets _ _ _ _)). econstructor; [apply recv_data; assumption|constructor].
  - rewrite <- app_assoc. econstructor; [apply recv_data; assumption|exact IH].
Qed.
Lemma data_received L t max d : 0 < max < 16777216 -> 0 < da_id d < 2147483648 -> defined_flags (da_flags d) -> is_padded (da_flags d) = false ->
  exists out chunks last, data_encode max d = Ok out /\
    received L t out t (map (fun c => FData (mkData (da_id d) c (unset_end_stream (da_flags d)))) chunks ++ [FData (mkData (da_id d) last (da_flags d))]) /\
    concat chunks ++ last = da_data d.
Proof.
  intros M I D P. destruct (data_split max d M) as (cs & la & E & C & F & La & _); [lia|]. eexists. exists cs, la. split; [exact E|]. split; [|exact C].
  apply received_data; try assumption; [|lia]. eapply Forall_impl; [|exact F]. intros c Hc. cbn beta in Hc. lia.
Qed.
Lemma data_loop_zero id f fuel l : l <> [] -> data_loop fuel 0 id f l = Diverge.
Proof.
  intros H. induction fuel as [|fuel IH]; [reflexivity|]. cbn [data_loop]. rewrite N.min_0_r.
  destruct (N.ltb_spec 0 (blen l)) as [A|A].
  - change (skipn (N.to_nat 0) l) with l. rewrite IH. reflexivity.
  - destruct l; [contradiction|]. rewrite blen_cons in A. lia.
Qed.

(** ** Padding *)
Lemma trim_padded h p l : is_padded (fh_flag h) = true ->
  trim_padding h (p :: l) = if fh_length h <? p then Err (EHttp2 (TooMuchPadding p)) else Ok l.
Proof. intros H. unfold trim_padding. rewrite H. reflexivity. Qed.
Lemma recv_padded_data t L f id p l rest : 1 + blen l < 16777216 -> 0 < id < 2147483648 -> defined_flags f -> is_padded f = true ->
  recv t L (frame_octets 0 f id (p :: l) ++ rest) =
  (t, if blen l + 1 <? p then Err (EHttp2 (TooMuchPadding p)) else Ok (FData (mkData id l f), rest)).
Proof.
  intros B I D P. rewrite recv_octets; [|rewrite blen_cons; lia|lia|exact D]. unfold lift, frame_parse. rewrite trim_padded by exact P.
  cbn [fh_length]. rewrite blen_cons, (N.add_comm 1). destruct (blen l + 1 <? p); [reflexivity|].
  cbn [kind_new fh_kind fst snd]. unfold data_new. cbn [fh_id fh_flag]. destruct (N.eqb_spec id 0); [lia|reflexivity].
Qed.
