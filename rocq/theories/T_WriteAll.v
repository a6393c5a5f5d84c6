(** C107: what every writer produces, for every object. *)
From Coq Require Import Ascii String NArith ZArith Lia Bool List ZifyBool ZifyNat ZifyN.
From Verif Require Import Base P_Base M_Helper M_Header M_Url M_Http1 S_Http1 S_Reason M_Ws S_Ws M_Hpack S_Huffman S_Hpack S_Near M_Frame M_H2 S_Frame S_H2Api P_Frame P_Ctl P_HpackTable S_WriteAll P_WriteAll.
Import ListNotations.
Local Open Scope N_scope.

(** Heads of requests and responses. *)
Theorem C107_request : forall q r, req_encode_header q = r <-> request_written q r.
Proof. exact request_all. Qed.
Print Assumptions C107_request.
Theorem C107_response : forall p r, 100 <= p_status p <= 999 -> (resp_encode_header p = r <-> response_written p r).
Proof. exact response_all. Qed.
Print Assumptions C107_response.

(** WebSocket frames of any object that says of itself how it is to be written. *)
Theorem C107_ws : forall d key r, df_size d < 2 ^ 64 -> (write_to d key = r <-> ws_written d key r).
Proof. exact ws_all. Qed.
Print Assumptions C107_ws.

(** Header fields and header blocks, with any dynamic table. *)
Theorem C107_field : forall max dyn f t b, table_typed max dyn -> field_octets f ->
  (encode_header (table_of max dyn) f = Ok (t, b) <-> exists dyn', t = table_of max dyn' /\ field_written max dyn f b dyn').
Proof. exact field_all. Qed.
Print Assumptions C107_field.
Theorem C107_block : forall max dyn fs t b, table_typed max dyn -> Forall field_octets fs ->
  (encode_headers (table_of max dyn) fs = Ok (t, b) <-> exists dyn', t = table_of max dyn' /\ fields_written max dyn fs b dyn').
Proof. exact fields_all. Qed.
Print Assumptions C107_block.
(** The encoder always succeeds, and leaves such a table. *)
Theorem C107_block_written : forall max dyn fs, table_typed max dyn -> Forall field_octets fs ->
  exists b dyn', encode_headers (table_of max dyn) fs = Ok (table_of max dyn', b) /\ table_typed max dyn'.
Proof. intros max dyn fs T F. destruct (fields_run max fs F dyn T) as (b & d & E & _ & T'). eauto. Qed.
Print Assumptions C107_block_written.
Theorem C107_tables : forall max, hi_with_size max = table_of max [] /\ table_typed max [].
Proof. intros max. split; [reflexivity|]. split; [apply N.le_0_l|constructor]. Qed.
Print Assumptions C107_tables.

(** Frames. *)
Theorem C107_frame : forall room max dyn f t b, table_typed max dyn -> frame_typed f ->
  (frame_encode room (table_of max dyn) f = Ok (t, b) <-> exists dyn', t = table_of max dyn' /\ frame_written room max dyn f b dyn').
Proof. exact frame_all. Qed.
Print Assumptions C107_frame.
(** The only other outcome: data to be written in frames of no octets. *)
Theorem C107_frame_ends : forall room max dyn f, table_typed max dyn -> frame_typed f ->
  (frame_encode room (table_of max dyn) f = Diverge <-> exists d, f = FData d /\ room = 0 /\ da_data d <> []) /\
  (forall e, frame_encode room (table_of max dyn) f <> Err e) /\ frame_encode room (table_of max dyn) f <> Panic.
Proof. exact frame_ends. Qed.
Print Assumptions C107_frame_ends.

(** Refuted: that the length field says how long the frame is.  A GOAWAY frame of 2^24 octets is written with the
    length 0; the receiver refuses it as too short, and would read its payload as the next frames. *)
Theorem C107_length_refuted : forall t max g, ga_last g < 4294967296 -> ga_code g < 4294967296 -> blen (ga_debug g) = 16777208 ->
  exists p, goaway_encode g = header_octets 0 7 0 0 ++ p /\ blen p = 16777216 /\
    recv t max (goaway_encode g) = (t, Err (EHttp2 BadFrameSize)).
Proof.
  intros t max g I J L. exists (octets4 (ga_last g) ++ octets4 (ga_code g) ++ ga_debug g).
  assert (B : blen (octets4 (ga_last g) ++ octets4 (ga_code g) ++ ga_debug g) = 16777216).
  { rewrite !blen_app, L. reflexivity. }
  assert (E : goaway_encode g = header_octets 0 7 0 0 ++ octets4 (ga_last g) ++ octets4 (ga_code g) ++ ga_debug g).
  { destruct (C107_tables 0) as [_ T].
    assert (F : frame_encode 0 (table_of 0 []) (FGoAway g) = Ok (table_of 0 [], framed 7 0 0 (octets4 (ga_last g) ++ octets4 (ga_code g) ++ ga_debug g))).
    { apply C107_frame; [exact T|split; [exact I|split; [exact J|rewrite L; reflexivity]]|]. exists []. split; [reflexivity|apply frw_goaway]. }
    assert (F' : Ok (table_of 0 [], goaway_encode g) = Ok (table_of 0 [], framed 7 0 0 (octets4 (ga_last g) ++ octets4 (ga_code g) ++ ga_debug g))) by exact F.
    apply (f_equal (fun x => match x with Ok (_, y) => y | _ => [] end)) in F'. cbv beta iota in F'. rewrite F'. unfold framed. rewrite B. reflexivity. }
  split; [exact E|]. split; [exact B|]. rewrite E.
  change (header_octets 0 7 0 0) with (frame_octets 7 0 0 []).
  rewrite recv_octets; [reflexivity|reflexivity|reflexivity|]. exists false, false, false, false. reflexivity.
Qed.
Print Assumptions C107_length_refuted.

(** The five ways of writing a field: an entry of the static table; a name of it; ":path" with a value that it
    has not, twice; a new name, twice; and a name in which '1' stands for 'Q'. *)
Definition cases : list hfield :=
  [(str ":method", str "GET"); (str "Host", str "a"); (str ":path", str "/x"); (str ":path", str "/x");
   (str "x-1", str "y"); (str "X-1", str "y"); (str "x-Q", str "y")].
Example C107_fields : table_typed 4096 [] /\ Forall field_octets cases /\
  exists a p n v, encode_headers (table_of 4096 []) cases =
    Ok (table_of 4096 [(str "x-1", str "y"); (str ":path", str "/x"); (str ":path", str "/x"); (str "Host", str "a")],
        [130] ++ (64 + 38 :: a) ++ (64 :: p) ++ (64 :: p) ++ (64 :: n ++ v) ++ [190] ++ [190]) /\
    str_written (str "a") a /\ str_written (str "x-1") n /\ str_written (str "y") v.
Proof.
  split; [apply C107_tables|]. split; [apply Forall_forall; intros f H; apply (proj1 (Forall_forall _ cases)); [|exact H]; repeat constructor; cbv; reflexivity|].
  assert (S : forall s b, bytes_ok s -> encode_string s = Ok b -> str_written s b).
  { intros s b H E. destruct (encode_string_written s H) as (b' & E' & W). rewrite E in E'. injection E' as ->. exact W. }
  exists [129; 31], [132; 185; 88; 211; 63; 130; 99; 207], [131; 242; 176; 127], [129; 245]. split; [vm_compute; reflexivity|].
  split; [|split]; apply S; try (vm_compute; reflexivity); repeat constructor; cbv; reflexivity.
Qed.
(** A frame whose pieces are cut, and a promise. *)
Definition promise : pushf := mkPush 1 2 [(str "x", str "y")] (mkParts (Some MGet) None None (Some (str "/")) None) 0.
Example C107_frames : frame_typed (FData (mkData 5 (str "abcde") 1)) /\
  frame_encode 2 (table_of 0 []) (FData (mkData 5 (str "abcde") 1)) =
    Ok (table_of 0 [], framed 0 0 5 (str "ab") ++ framed 0 0 5 (str "cd") ++ framed 0 1 5 (str "e")) /\
  frame_typed (FPushPromise promise) /\
  exists b, frame_encode 16384 (table_of 4096 []) (FPushPromise promise) =
    Ok (table_of 4096 [(str "x", str "y")], framed 5 4 1 [0; 0; 0; 2; 130; 132] ++ framed 1 4 2 b).
Proof.
  split; [reflexivity|]. split; [vm_compute; reflexivity|]. split.
  - unfold frame_typed, parts_octets, promise. cbn [pp_id pp_promised pp_fields pp_parts pt_method pt_scheme pt_authority pt_path pt_status].
    repeat match goal with |- _ /\ _ => split end; try reflexivity; [repeat (constructor; try (cbv; reflexivity))|..]; intros x H; try discriminate H; injection H as <-;
      repeat (constructor; try (cbv; reflexivity)).
  - exists [64; 129; 243; 129; 245]. vm_compute. reflexivity.
Qed.
Example C107_heads : request_written req_default (Err (ESerialize "method")) /\
  ws_written {| df_last := true; df_opcode := 9; df_rsv := (false, false, false); df_size := 2; df_chunks := [[1]; [2; 3]]; df_take := [] |} None (Ok [137; 2; 1; 2; 3]) /\
  phrase 404 (str "Not Found") /\ (forall s, ~ phrase 599 s).
Proof.
  split; [apply rqw_method; reflexivity|]. split; [apply ws_all; [|vm_compute]; reflexivity|].
  split; [apply phrase_iff; [lia|reflexivity]|]. intros s H. apply phrase_iff in H; [discriminate H|lia].
Qed.
