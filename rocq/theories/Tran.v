(* Version negotiation.  Models lib/tran.c and lib/tran_sock.c:447-476.
   The JSON library is represented by the value its parser produces and by its printer, both arguments. *)
From Coq Require Import NArith ZArith List Bool String Ascii.
From Verif Require Import Base Types Bytes Dma Dirty Migr Irq Pci Handlers Server Wire.
Import ListNotations.
Open Scope N_scope.

(* json-c values.  JInt carries what json_object_get_int64 answers (an int64_t) and whether it sets errno. *)
Inductive json : Type :=
| JNull
| JBool (b : bool)
| JInt (v : Z) (err : bool)
| JOther                          (* strings, arrays, doubles *)
| JObj (l : list (string * json)).

(* json_object_object_get_ex: false on anything but an object. *)
Fixpoint assoc (k : string) (l : list (string * json)) : option json :=
  match l with
  | [] => None
  | (k', v) :: l' => if String.eqb k k' then Some v else assoc k l'
  end.
Definition get_ex (j : json) (k : string) : option json :=
  match j with JObj l => assoc k l | _ => None end.

(* The C conversions (int)int64, (size_t)int and (size_t)int64. *)
Definition to_int (v : Z) : Z := ((v + 2147483648) mod 4294967296 - 2147483648)%Z.
Definition to_size (v : Z) : N := Z.to_N (v mod 18446744073709551616)%Z.

(* include/libvfio-user.h:63-64, include/vfio-user.h:53, lib/tran.h:67, lib/private.h:55, lib/tran.c:45. *)
Definition LIB_MAJOR : N := 0.
Definition LIB_MINOR : N := 2.
Definition CMD_VERSION : N := 1.
Definition DEFAULT_XFER : N := 1048576.
Definition CLIENT_MAX_FDS_LIMIT : Z := 1024.
Definition SERVER_MAX_FDS : N := 8.
Definition SERVER_MAX_XFER : N := 1048576.

(* The variables tran_parse_version_json stores into. *)
Record limits : Type := mk_limits { lm_fds : Z; lm_xfer : N; lm_pgsize : N; lm_twin : bool }.
Definition set_lm_fds (p : limits) (v : Z) : limits := mk_limits v (lm_xfer p) (lm_pgsize p) (lm_twin p).
Definition set_lm_xfer (p : limits) (v : N) : limits := mk_limits (lm_fds p) v (lm_pgsize p) (lm_twin p).
Definition set_lm_pgsize (p : limits) (v : N) : limits := mk_limits (lm_fds p) (lm_xfer p) v (lm_twin p).
Definition set_lm_twin (p : limits) (v : bool) : limits := mk_limits (lm_fds p) (lm_xfer p) (lm_pgsize p) v.

(* The four optional capabilities, lib/tran.c:90-104, 106-117, 118-137, 139-158; the flag is false on "goto out"
   with EINVAL. *)
Definition cap_fds (caps : json) (p : limits) : bool * limits :=
  match get_ex caps "max_msg_fds" with
  | None => (true, p)
  | Some (JInt v err) => (negb err, set_lm_fds p (to_int v))
  | Some _ => (false, p)
  end.
Definition cap_xfer (caps : json) (p : limits) : bool * limits :=
  match get_ex caps "max_data_xfer_size" with
  | None => (true, p)
  | Some (JInt v err) => (negb err, set_lm_xfer p (to_size (to_int v)))
  | Some _ => (false, p)
  end.
Definition cap_migration (caps : json) (p : limits) : bool * limits :=
  match get_ex caps "migration" with
  | None => (true, p)
  | Some (JObj l) =>
      match get_ex (JObj l) "pgsize" with
      | None => (true, p)
      | Some (JInt v err) => (negb err, set_lm_pgsize p (to_size v))
      | Some _ => (false, p)
      end
  | Some _ => (false, p)
  end.
Definition cap_twin (caps : json) (p : limits) : bool * limits :=
  match get_ex caps "twin_socket" with
  | None => (true, p)
  | Some (JObj l) =>
      match get_ex (JObj l) "supported" with
      | None => (true, p)
      | Some (JBool b) => (true, set_lm_twin p b)
      | Some _ => (false, p)
      end
  | Some _ => (false, p)
  end.

(* lib/tran.c:70-169 tran_parse_version_json: None is NULL from json_tokener_parse. *)
Definition parse_version (top : option json) (p : limits) : bool * limits :=
  match top with
  | None => (false, p)
  | Some j =>
      match get_ex j "capabilities" with
      | None => (true, p)
      | Some (JObj l) =>
          let caps := JObj l in
          let '(ok1, p1) := cap_fds caps p in
          if negb ok1 then (false, p1)
          else let '(ok2, p2) := cap_xfer caps p1 in
          if negb ok2 then (false, p2)
          else let '(ok3, p3) := cap_migration caps p2 in
          if negb ok3 then (false, p3)
          else cap_twin caps p3
      | Some _ => (false, p)
      end
  end.

(* The context fields negotiation reads and writes: client_max_fds, client_max_data_xfer_size (lib/private.h:156-191),
   the page size of the migration object when there is one. *)
Record nego : Type := mk_nego { ng_fds : Z; ng_xfer : N; ng_pgsize : option N }.

(* lib/migration.c:430-441 migration_set_pgsize, called when there is migration and a page size was given. *)
Definition nego_pgsize (old : option N) (pgsize : N) : bool * option N :=
  match old with
  | None => (true, None)
  | Some o =>
      if pgsize =? 0 then (true, Some o)
      else if negb (pgsize =? PAGE_SIZE) then (false, Some o) else (true, Some pgsize)
  end.

(* lib/tran.c:205-270: the checks of recv_version on a message that was received; Err is "goto out".  parse is
   json_tokener_parse on the bytes after the version numbers.  Answers the client's minor version and whether
   it supports a twin socket. *)
Definition check_version (parse : list N -> option json) (h : header) (body : list N) (g : nego)
  : outcome (N * bool) * nego :=
  if negb (hd_cmd h =? CMD_VERSION) then (Err EINVAL, g)
  else if N.of_nat (List.length body) <? 4 then (Err EINVAL, g)
  else
    need (rd body 0 2) (Crash OutOfBounds, g) (fun major =>
    need (rd body 2 2) (Crash OutOfBounds, g) (fun minor =>
      if negb (major =? LIB_MAJOR) then (Err EINVAL, g)
      else
        let p := mk_limits 1 DEFAULT_XFER 0 false in
        let g1 := mk_nego 1 DEFAULT_XFER (ng_pgsize g) in
        if negb (4 <? N.of_nat (List.length body)) then (Ok (minor, false), g1)
        else
          let text := skipn 4 body in
          if negb (List.last text 1 =? 0) then (Err EINVAL, g1)
          else
            let '(ok, p') := parse_version (parse text) p in
            let g2 := mk_nego (lm_fds p') (lm_xfer p') (ng_pgsize g) in
            if negb ok then (Err EINVAL, g2)
            else
              let '(okp, pg) := nego_pgsize (ng_pgsize g) (lm_pgsize p') in
              let g3 := mk_nego (lm_fds p') (lm_xfer p') pg in
              if negb okp then (Err EINVAL, g3)
              else if ((lm_fds p' <? 0) || (CLIENT_MAX_FDS_LIMIT <? lm_fds p'))%Z then (Err EINVAL, g3)
              else (Ok (minor, lm_twin p'), g3))).

(* lib/tran.c:341-410 format_server_capabilities. *)
Definition server_caps (pgsize : option N) (twin : bool) : json :=
  JObj [("capabilities"%string,
    JObj ([("max_msg_fds"%string, JInt (Z.of_N SERVER_MAX_FDS) false);
           ("max_data_xfer_size"%string, JInt (Z.of_N SERVER_MAX_XFER) false)]
          ++ match pgsize with
             | Some p => [("migration"%string, JObj [("pgsize"%string, JInt (Z.of_N p) false)])]
             | None => []
             end
          ++ if twin then [("twin_socket"%string, JObj [("supported"%string, JBool true); ("fd_index"%string, JInt 0 false)])]
             else []))].

(* What the outside does during vfu_attach_ctx: the accepted connection, the bytes on it and how many of them
   have arrived when the header is read, the answers to the two possible sends, socketpair. *)
Record attach_env : Type := mk_attach {
  at_accept : Z + N;
  at_stream : list N;
  at_avail : nat;
  at_send : send_answer;
  at_pair : (Z * Z) + N
}.

(* Effects of vfu_attach_ctx that can be seen from outside. *)
Inductive attach_event : Type :=
| AtPaired (f0 f1 : Z)
| AtSent (b : list N) (fds : list Z)
| AtClosed (fd : Z).

(* lib/tran.c:412-498 send_version and tran_negotiate, after recv_version has accepted message h: answers the
   server's end of the twin socket.  print is json_object_to_json_string. *)
Definition finish_negotiate (print : json -> list N) (id minor : N) (twin : bool) (g : nego) (a : attach_env)
  : outcome Z * list attach_event :=
  match (if twin && (0 <? ng_fds g)%Z then
           match at_pair a with inl (x, y) => inl (x, y, [AtPaired x y]) | inr e => inr e end
         else inl (-1, -1, [])%Z) with
  | inr e => (Err e, [])
  | inl (f0, f1, paired) =>
      let has_fd := (0 <=? f0)%Z in
      let caps := print (server_caps (ng_pgsize g) has_fd) in
      let payload := le_bytes 2 LIB_MAJOR ++ le_bytes 2 (N.min minor LIB_MINOR) ++ caps ++ [0] in
      let '(o, b) := send_iovec id true CMD_VERSION 0 payload (at_send a) in
      let sent := match o with Ok _ => [AtSent b (if has_fd then [f0] else [])] | _ => [] end in
      let closed0 := if (f0 =? -1)%Z then [] else [AtClosed f0] in
      match o with
      | Ok _ => (Ok f1, paired ++ sent ++ closed0)
      | Err e => (Err e, paired ++ sent ++ closed0 ++ (if (f1 =? -1)%Z then [] else [AtClosed f1]))
      | Crash c => (Crash c, paired ++ sent ++ closed0)
      end
  end.

(* lib/tran.c:171-294 recv_version, 455-498 tran_negotiate. *)
Definition negotiate (parse : list N -> option json) (print : json -> list N) (g : nego) (a : attach_env)
  : outcome Z * nego * list attach_event :=
  match recv_alloc (at_avail a) (at_stream a) with
  | (Err e, _) => (Err e, g, [])
  | (Crash c, _) => (Crash c, g, [])
  | (Ok (h, body), _) =>
      match check_version parse h body g with
      | (Crash c, g') => (Crash c, g', [])
      | (Err e, g') =>
          let '(o, b) := send_iovec (hd_id h) true (hd_cmd h) e [] (at_send a) in
          (Err e, g', match o with Ok _ => [AtSent b []] | _ => [] end)
      | (Ok (minor, twin), g') =>
          let '(o, ev) := finish_negotiate print (hd_id h) minor twin g' a in (o, g', ev)
      end
  end.

(* The transport object, lib/tran_sock.c:46-50 (listen_fd is not modelled). *)
Record tran : Type := mk_tran { tr_conn : Z; tr_cmd : Z }.

(* lib/tran_sock.c:447-476 tran_sock_attach, lib/libvfio-user.c:1970-1977 vfu_attach_ctx. *)
Definition attach (parse : list N -> option json) (print : json -> list N) (t : tran) (g : nego) (a : attach_env)
  : outcome unit * tran * nego * list attach_event :=
  if negb (tr_conn t =? -1)%Z then (Err EINVAL, t, g, [])
  else
    match at_accept a with
    | inr e => (Err e, t, g, [])
    | inl fd =>
        match negotiate parse print g a with
        | (Ok cmd, g', ev) => (Ok tt, mk_tran fd cmd, g', ev)
        | (Err e, g', ev) => (Err e, mk_tran (-1) (tr_cmd t), g', ev ++ [AtClosed fd])
        | (Crash c, g', ev) => (Crash c, mk_tran fd (tr_cmd t), g', ev)
        end
    end.

(* lib/tran_sock.c:652-665 tran_sock_detach. *)
Definition detach (t : tran) : tran * list attach_event :=
  (mk_tran (-1) (-1),
   (if (tr_conn t =? -1)%Z then [] else [AtClosed (tr_conn t)]) ++ (if (tr_cmd t =? -1)%Z then [] else [AtClosed (tr_cmd t)])).
