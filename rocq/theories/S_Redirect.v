(** References, and what they are resolved to (RFC 3986 section 5.2), without fragments (C133). *)
From Coq Require Import Ascii String NArith ZArith Bool List.
From Verif Require Import Base M_Url S_Http1 S_Http1Api S_Hex S_Url S_Rfc9112 S_Rfc3986.
Import ListNotations.
Local Open Scope N_scope.

(** ** 5.2.4: remove_dot_segments *)
Fixpoint until_slash (l : bytes) : bytes * bytes :=
  match l with [] => ([], []) | b :: l' => if b =? 47 then ([], l) else let (a, r) := until_slash l' in (b :: a, r) end.
Fixpoint starts (p l : bytes) : bool :=
  match p, l with [], _ => true | a :: p', b :: l' => (a =? b) && starts p' l' | _, _ => false end.
(** "remove the last segment and its preceding '/' (if any) from the output buffer" *)
Definition drop_last (out : bytes) : bytes := rev (tl (snd (until_slash (rev out)))).
Fixpoint dots_loop (fuel : nat) (inp out : bytes) : bytes :=
  match fuel with
  | O => out
  | S f =>
    if beq inp [] then out
    else if starts (str "../") inp then dots_loop f (skipn 3 inp) out
    else if starts (str "./") inp then dots_loop f (skipn 2 inp) out
    else if starts (str "/./") inp then dots_loop f (skipn 2 inp) out
    else if beq inp (str "/.") then dots_loop f (str "/") out
    else if starts (str "/../") inp then dots_loop f (skipn 3 inp) (drop_last out)
    else if beq inp (str "/..") then dots_loop f (str "/") (drop_last out)
    else if beq inp (str ".") || beq inp (str "..") then out
    else match inp with
         | [] => out
         | b :: l => let (a, r) := until_slash l in dots_loop f r (out ++ b :: a)
         end
  end.
Definition remove_dots (p : bytes) : bytes := dots_loop (S (length p)) p [].
(** A path with a segment "." or "..". *)
Definition dot_segments (p : bytes) : Prop :=
  exists a d b, p = a ++ 47 :: d ++ b /\ (d = str "." \/ d = str "..") /\ (b = [] \/ exists z, b = 47 :: z).

(** ** 4.1, 4.2: references *)
Inductive reference :=
| RUri (r : uri)                        (* a URI *)
| RNet (k h po p q : bytes)             (* "//" authority path-abempty *)
| RAbs (p q : bytes)                    (* path-absolute *)
| RRel (p q : bytes)                    (* path-noscheme *)
| RSame (q : bytes).                    (* path-empty *)
Definition reference_ok (r : reference) : Prop :=
  match r with
  | RUri r => uri_ok r /\ ui_frag r = []
  | RNet k h po p q => userinfo_opt k /\ uri_host h /\ port_opt po /\ (p = [] \/ abs_path p) /\ query_text q
  | RAbs p q => abs_path p /\ starts (str "//") p = false /\ query_text q
  | RRel p q => pct_text (fun b => pchar b \/ b = 47) p /\ p <> [] /\ hd_error p <> Some 47 /\ ~ In 58 (fst (until_slash p)) /\ query_text q
  | RSame q => query_text q
  end.
Definition reference_text (r : reference) : bytes :=
  match r with
  | RUri r => uri_text r
  | RNet k h po p q => str "//" ++ k ++ h ++ po ++ p ++ q
  | RAbs p q => p ++ q
  | RRel p q => p ++ q
  | RSame q => q
  end.

(** ** 5.2.2, 5.2.3: for a base URI with an authority *)
Definition merged (b p : bytes) : bytes :=
  match b with [] => 47 :: p | _ => rev (snd (until_slash (rev b))) ++ p end.
Definition resolve (b : uri) (r : reference) : uri :=
  match r with
  | RUri r => mkUri (ui_scheme r) (ui_user r) (ui_host r) (ui_port r) (remove_dots (ui_path r)) (ui_query r) []
  | RNet k h po p q => mkUri (ui_scheme b) k h po (remove_dots p) q []
  | RAbs p q => mkUri (ui_scheme b) (ui_user b) (ui_host b) (ui_port b) (remove_dots p) q []
  | RRel p q => mkUri (ui_scheme b) (ui_user b) (ui_host b) (ui_port b) (remove_dots (merged (ui_path b) p)) q []
  | RSame q => mkUri (ui_scheme b) (ui_user b) (ui_host b) (ui_port b) (ui_path b) (match q with [] => ui_query b | _ => q end) []
  end.
Definition root (p : bytes) : Prop := p = [] \/ p = str "/".
