(** SpecDefinedApi.v - which requests to the API have a defined effect. *)
From Verif Require Import Base CLib WsRequest SpecMultipart SpecJson SpecHttp SpecConn SpecReq SpecRouter SpecDispatch SpecApi SpecDefined SpecDecode Spec.
(** From the model only the record types are used here. *)

(** What atoi makes of a text: blanks, a sign and digits; a number beyond 64 bits becomes the nearest
    one, and 32 bits of it are kept. *)
Definition atoi_gives (s : str) (n : Z) : Prop :=
  exists b sign d r z k, s = b ++ sign ++ d ++ r /\ Forall blank b /\ In sign [[]; L "-"; L "+"]
    /\ Forall (fun c => digit c = true) d
    /\ (forall c t, r = c :: t -> digit c = false)
    /\ (sign = [] -> d = [] -> forall c t, r = c :: t -> ~ blank c /\ c <> "-"%char /\ c <> "+"%char)
    /\ z = (if list_eq_dec ascii_dec sign (L "-") then - value_of_digits 0 d else value_of_digits 0 d)
    /\ n = Z.max (- 2 ^ 63) (Z.min (2 ^ 63 - 1) z) + k * 2 ^ 32 /\ - 2 ^ 31 <= n < 2 ^ 31.
(** The length after a line [l], of which a C program sees [t], if it was [n] before.  The number is
    read 16 bytes into the line, whatever the byte before it is. *)
Definition tells_size (l t : str) (n n' : Z) : Prop :=
  (~ ci_prefix (L "Content-Length:") t /\ n' = n)
  \/ (ci_prefix (L "Content-Length:") t /\ exists r u, tail_at 16 l r /\ seen_as r u /\ atoi_gives u n').

(** The header lines of [s], read after others had announced [n] bytes and the boundary [b],
    announce [n'] bytes and [b']; [after] follows them.  If all ends with the name of the length, a
    number is read from what the line before has left; but then there is no body, and 0 will do. *)
Inductive announced : str -> Z -> str -> Z -> str -> str -> Prop :=
| an_end : forall n b, announced [] n b n b []
| an_blank : forall s l rest n b, line_of 1024 s l rest -> SpecReq.blank_line l -> announced s n b n b rest
| an_line : forall s l rest t n b n1 b1 n' b' after, line_of 1024 s l rest -> l <> [] -> ~ SpecReq.blank_line l -> seen_as l t ->
    tells_size l t n n1 -> tells_boundary t b b1 -> announced rest n1 b1 n' b' after -> announced s n b n' b' after
| an_bare : forall s n b, ci_equal (L "Content-Length:") s -> announced s n b 0 b [].

(** The text of the form made of what follows the headers: nothing; the body up to its first NUL; or
    the text of a multipart body, if it has one. *)
Inductive form_given (n : Z) (bnd after : str) : str -> Prop :=
| fg_none : n <= 0 -> form_given n bnd after []
| fg_body : forall body text, 0 < n -> len bnd < 2 -> request_body n after body -> seen_as body text -> form_given n bnd after text
| fg_parts : forall body text, 0 < n -> 2 <= len bnd -> request_body n after body -> form_text bnd body text -> form_given n bnd after text.

(** The parameter of a route fits: in the block made for it, and behind a form that is not empty and
    has room for [n] bytes. *)
Definition param_fits (rt : route) (mp : str) (n : Z) (text : str) : Prop :=
  rt_type rt = MATCHER_TYPE_PARAM ->
  len (rt_param rt) <= 2 * len (rt_prefix rt) + 8
  /\ (text = [] \/ len (with_param text (rt_param rt) (skipn (length (rt_prefix rt)) mp)) <= n).

(** What is wrong with a request for METHOD:PATH with these header fields. *)
Definition api_wrong (v : wsenv) (m p : str) (fs : list (str * str)) (n : Z) (text : str) : Prop :=
  254 <= len m + len p
  \/ (none_selected (v_routes v) (m ++ L ":" ++ p) /\ long_logged fs)
  \/ (exists rt, selected (v_routes v) (m ++ L ":" ++ p) rt
       /\ (~ param_fits rt (m ++ L ":" ++ p) n text \/ (rt_handler rt = None /\ long_logged fs))).

(** The routes as the application has registered them; a buffer for MD5 sums as in the code. *)
Definition sound_routes (v : wsenv) : Prop :=
  live (v_routes v) /\ Forall (fun rt => no_nul (rt_param rt)) (v_routes v) /\ mp_md5_size (v_mp v) = MD5_BUF.
(** The rest of the setting. *)
Definition sound_limits (v : wsenv) (t : table) (peer : str) : Prop :=
  len peer <= 15 /\ Forall (fun r => no_nul (l_path r)) (v_limits v) /\ Forall (fun c => no_nul (c_path c)) (occupied t).

(** A request with a defined effect, to the API or not. *)
Definition harmless (v : wsenv) (f : fs) (t : table) (peer stream : str) : Prop :=
  exists seen m url s1, first_line stream seen m url s1 /\
  ((exists junk, sound_setting v f t peer junk /\ (forall u, url = Some u -> ~ api_url u) /\ ~ wrong v f t peer junk seen m url s1)
   \/ (sound_limits v t peer /\ 2 <= len seen /\ exists u, url = Some u /\
        (~ allowed m \/ ~ let_in v t peer u
         \/ (sound_routes v /\ api_url u /\ ~ bad_headers s1
             /\ exists mount p q fs n bnd after text, url_parts u (mount ++ p) q /\ len mount = 4 /\ headers s1 fs
                  /\ announced s1 (-1) [] n bnd after /\ form_given n bnd after text /\ ~ api_wrong v m p fs n text)))).
