(** WebSocket messages and frames that are received and sent on (C125). *)
From Coq Require Import NArith Bool List.
From Verif Require Import Base S_Utf8 M_Ws S_Ws S_WsApi S_Rfc6455 S_RfcTalk.
Import ListNotations.
Local Open Scope N_scope.

(** Messages, or frames, written one after another, each with its key. *)
Definition messages_written (ms : list owned) (keys : list (option mkey)) (b : bytes) : Prop :=
  written_all (map (fun mk => (owned_df (fst mk), snd mk)) (combine ms keys)) b.
Definition frames_written_on (ds : list dataframe) (keys : list (option mkey)) (b : bytes) : Prop :=
  written_all (map (fun dk => (dataframe_df (fst dk), snd dk)) (combine ds keys)) b.
