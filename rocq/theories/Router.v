(** Router.v - model of /repo/router.c and router.h. *)
From Verif Require Export HttpUtils.

(** /repo/router.h:33-36, router.c:39-40 *)
Definition MAX_ROUTES : Z := 128.
Definition MAX_ROUTE_PATH : Z := 256.
Definition MAX_PARAM_LENGTH : Z := 64.
Inductive matcher_type := MATCHER_TYPE_CONSTANT | MATCHER_TYPE_PARAM.

(** One routing-table entry: route_matcher (router.h:38-42; prefix and param as
    contents), handler and filter (function pointers, named by numbers; None is NULL).
    [rt_live] is false once the matcher has been freed. *)
Record route := mkRoute {
  rt_type : matcher_type;
  rt_prefix : str;
  rt_param : str;
  rt_handler : option nat;
  rt_filter : option nat;
  rt_live : bool }.

(** The routing table; n_routes is the length of the list. *)
Notation router := (list route) (only parsing).

(** ** router_init - /repo/router.c:57-60 *)
Definition router_init : router := [].

(** ** router_resolve_route - /repo/router.c:62-79.  Returns (prefix, param). *)

(** Lines 69-73: [i] is index/tmp; [*tmp > 0] is a signed comparison. *)
Fixpoint brace_scan (fuel : nat) (b : buf) (i : Z) : outcome Z :=
  c <- rd b i;;
  if (0 <? schar c) && negb (ceq c "{") then
    match fuel with O => UB OutOfFuel | S f => brace_scan f b (i + 1) end
  else Ok i.

Definition router_resolve_route (template : str) : outcome (str * str) :=
  b <- wr (cs template) (len template - 1) NUL;;             (* 65-66 *)
  i <- brace_scan (length b) b 0;;
  p <- cstr (from b (i + 1));;                               (* 75: ++tmp *)
  param <- fits MAX_PARAM_LENGTH p;;
  b' <- wr b i NUL;;                                         (* 76 *)
  pre <- cstr b';;
  prefix <- fits MAX_ROUTE_PATH pre;;                        (* 77 *)
  Ok (prefix, param).

(** ** router_add_route - /repo/router.c:92-111 *)
Definition router_add_route (t : router) (template : str) (handler filter : option nat)
  : outcome router :=
  '(ty, prefix, param) <-
    (match strchr template "{" with
     | Some _ => '(prefix, param) <- router_resolve_route template;;
                 Ok (MATCHER_TYPE_PARAM, prefix, param)
     | None => prefix <- fits MAX_ROUTE_PATH template;;
               Ok (MATCHER_TYPE_CONSTANT, prefix, [])
     end);;
  if MAX_ROUTES <=? len t then UB ArrayIndex                 (* 107 *)
  else Ok (t ++ [mkRoute ty prefix param handler filter true]).

(** ** router_extract_param - /repo/router.c:81-90 *)
Definition router_extract_param (path prefix param : str) : outcome str :=
  let prefix_len := len prefix in
  v <- cstr (from (cs path) prefix_len);;
  b <- strcpy (calloc (len path + prefix_len + 10)) 0 (param ++ L "=" ++ v);;
  cstr b.

(** ** Application callbacks: what the filters and handlers do to the request. *)
Record callbacks := mkApp {
  on_filter : nat -> api_request -> api_request * bool;
  on_handler : nat -> api_request -> api_request }.
Inductive call := CallFilter (f : nat) | CallHandler (h : nat).

(** ** router_handle_request - /repo/router.c:113-173 *)

(** Lines 125-154: the loop over the table.  Returns the request (whose form may have
    been extended), handler and filter. *)
Fixpoint route_loop (t : router) (matcher : str) (r : api_request)
  : outcome (api_request * option nat * option nat) :=
  match t with
  | [] => Ok (r, None, None)
  | rt :: t' =>
    if negb (rt_live rt) then UB UseAfterFree else
    let eq := str_eqb (rt_prefix rt) matcher in
    match rt_type rt with
    | MATCHER_TYPE_CONSTANT =>
      if eq then Ok (r, rt_handler rt, rt_filter rt) else route_loop t' matcher r
    | MATCHER_TYPE_PARAM =>
      match strstr matcher (rt_prefix rt), eq with
      | Some _, false =>
        qs <- router_extract_param matcher (rt_prefix rt) (rt_param rt);;
        n <- strlen (r_form r);;
        form <- (if n =? 0 then Ok (cs qs)                        (* 140 *)
                 else strcat (r_form r) (L "&" ++ qs));;          (* 145-146 *)
        Ok (set_form r form, rt_handler rt, rt_filter rt)
      | _, _ => route_loop t' matcher r
      end
    end
  end.

(** ** reject_routing_request - /repo/router.c:175-179 *)
Definition reject_routing_request (r : api_request) : outcome api_request := bad_request r.

(** The calls made to the application, in order, and the final request. *)
Definition router_handle_request (a : callbacks) (t : router) (r : api_request)
  : outcome (list call * api_request) :=
  matcher <- fits 255 (r_method r ++ L ":" ++ r_path r);;       (* 120-123 *)
  '(r1, handler, filter) <- route_loop t matcher r;;
  match handler with
  | None => r2 <- reject_routing_request r1;; Ok ([], r2)
  | Some h =>
    match filter with
    | None => Ok ([CallHandler h], on_handler a h r1)
    | Some f =>
      let '(r2, pass) := on_filter a f r1 in
      if pass : bool then Ok ([CallFilter f; CallHandler h], on_handler a h r2)
      else Ok ([CallFilter f], r2)
    end
  end.

(** ** free_routing_table - /repo/router.c:181-187: n_routes is not reset. *)
Fixpoint free_routing_table (t : router) : outcome router :=
  match t with
  | [] => Ok []
  | rt :: t' =>
    if rt_live rt then
      t'' <- free_routing_table t';;
      Ok (mkRoute (rt_type rt) (rt_prefix rt) (rt_param rt) (rt_handler rt) (rt_filter rt) false :: t'')
    else UB UseAfterFree
  end.
