(** WsConn.v - model of the live-connection table and limit rules of /repo/ws.c. *)
From Verif Require Export StringUtils FileUtils HttpUtils.

(** /repo/ws.h:36,46; http_utils.h:71-72 *)
Definition WS_MAX_CONNECTIONS : Z := 1024.
Definition MAX_LIMIT_RULES : Z := 64.

(** connections - http_utils.h:132-138 (path and IP as contents; unix_time is never
    used).  path_limits - http_utils.h:142-148. *)
Record conn := mkConn { c_socket : Z; c_path : str; c_ip : str }.
Record limit := mkLimit { l_path : str; l_max : Z; l_max_ip : Z; l_seconds : Z }.

(** live_connections: the array of slots; a slot is free when its socket is 0.
    ws.c:740 allocates it zeroed. *)
Notation table := (list conn) (only parsing).
Definition free_slot : conn := mkConn 0 [] [].
Definition empty_table : table := repeat free_slot (Z.to_nat WS_MAX_CONNECTIONS).

(** ** get_live_stats - /repo/ws.c:368-383; returns (total, by_ip). *)
Fixpoint get_live_stats (t : table) (path ip : str) (total by_ip : Z) : outcome (Z * Z) :=
  match t with
  | [] => Ok (total, by_ip)
  | c :: t' =>
    if negb (c_socket c =? 0) then
      p <- startswith (cs (c_path c)) path;;
      if p : bool then
        get_live_stats t' path ip (total + 1) (if str_eqb ip (c_ip c) then by_ip + 1 else by_ip)
      else get_live_stats t' path ip total by_ip
    else get_live_stats t' path ip total by_ip
  end.

(** ** connection_validate - /repo/ws.c:386-410.  The rules are limits[0..64). *)
Fixpoint connection_validate (rules : list limit) (t : table) (ip path : str) : outcome bool :=
  match rules with
  | [] => Ok true
  | r :: rs =>
    match l_path r with
    | [] => Ok true                                               (* 390: break *)
    | _ :: _ =>
      p <- startswith (cs path) (l_path r);;
      if p : bool then
        '(total, by_ip) <- get_live_stats t (l_path r) ip 0 0;;
        if l_max r <? total then Ok false
        else if l_max_ip r <? by_ip then Ok false
        else connection_validate rs t ip path
      else connection_validate rs t ip path
    end
  end.

(** ** connection_del - /repo/ws.c:424-436 *)
Fixpoint connection_del (t : table) (socket : Z) : table :=
  match t with
  | [] => []
  | c :: t' => if c_socket c =? socket then free_slot :: t' else c :: connection_del t' socket
  end.

(** ** connection_add - /repo/ws.c:439-456 *)

(** Lines 444-452: the first free slot. *)
Fixpoint claim_slot (t : table) (socket : Z) (ip path : str) : outcome (bool * table) :=
  match t with
  | [] => Ok (false, [])
  | c :: t' =>
    if c_socket c =? 0 then
      p <- fits HTTP_MAX_PATH path;;
      i <- fits HTTP_MAX_IP ip;;
      Ok (true, mkConn socket p i :: t')
    else '(r, t'') <- claim_slot t' socket ip path;; Ok (r, c :: t'')
  end.

Definition connection_add (rules : list limit) (t : table) (socket : Z) (ip path : str)
  : outcome (bool * table) :=
  v <- connection_validate rules t ip path;;
  if v : bool then claim_slot t socket ip path else Ok (false, t).

(** ** load_limits - /repo/ws.c:833-893.  The result is out[0..64): here the list of
    accepted rules, the remaining entries having an empty path (connection_validate
    stops there). *)

Definition free_limit : limit := mkLimit [] 0 0 0.

(** One line starting with '/' (lines 858-875): path token and up to three numbers.
    [prev] is out[path_rules] as earlier, rejected lines left it (line 880 only clears
    the path). *)
Definition limit_fields (prev : limit) (line : str) : outcome (option limit * limit) :=
  match strtok (L ",") line with
  | None => UB NullDeref
  | Some (p, r1) =>
    path <- fits HTTP_MAX_PATH p;;
    match strtok (L ",") r1 with
    | None => Ok (None, mkLimit [] (l_max prev) (l_max_ip prev) (l_seconds prev))
    | Some (a, r2) =>
      match strtok (L ",") r2 with
      | None => Ok (None, mkLimit [] (atoi a) (l_max_ip prev) (l_seconds prev))
      | Some (b, r3) =>
        match strtok (L ",") r3 with
        | None => Ok (Some (mkLimit path (atoi a) (atoi b) (l_seconds prev)), free_limit)
        | Some (s, _) => Ok (Some (mkLimit path (atoi a) (atoi b) (atoi s)), free_limit)
        end
      end
    end
  end.

(** Lines 852-885: the loop over the lines; [n] rules accepted so far. *)
Fixpoint limits_loop (fuel : nat) (n : Z) (prev : limit) (content : str) : outcome (list limit) :=
  match getline content with
  | None => Ok []
  | Some (line, rest) =>
    match fuel with
    | O => UB OutOfFuel
    | S f =>
      match line with
      | c :: _ =>
        if ceq c "/" then
          '(r, prev') <- limit_fields prev (upto_nul line);;
          match r with
          | Some rule =>
            if MAX_LIMIT_RULES <=? n + 1 then Ok [rule]                 (* 883-884 *)
            else l <- limits_loop f (n + 1) prev' rest;; Ok (rule :: l)
          | None => limits_loop f n prev' rest
          end
        else limits_loop f n prev rest
      | [] => limits_loop f n prev rest
      end
    end
  end.

Definition load_limits (f : fs) (root : str) : outcome (list limit) :=
  path <- fits (ROOT_PATH_MAX + 32) (root ++ L "/etc/limits");;          (* 835 *)
  match f path with
  | Some (File content) => limits_loop (length content) 0 free_limit content
  | _ => Ok []
  end.
