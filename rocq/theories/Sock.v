(* The listening socket.  Models lib/tran_sock.c:367-445, 652-683 and the calls of vfu_create_ctx, vfu_attach_ctx,
   vfu_get_poll_fd and vfu_destroy_ctx (lib/libvfio-user.c:1843-1987) that reach it, for several devices in one process. *)
From Coq Require Import NArith ZArith String List Bool.
From Verif Require Import Base Types Bytes Irq Migr Server Wire Tran.
Import ListNotations.
Open Scope N_scope.

(* A path given to vfu_create_ctx: its bytes, without the final NUL.  Not modelled: the empty path (bind then makes an
   abstract name), different paths that lead to the same file. *)
Definition path : Type := list N.
(* Equality of paths. *)
Definition path_eq (p q : path) : bool := if list_eq_dec N.eq_dec p q then true else false.

(* Linux errno values and the size of sun_path. *)
Definition EADDRINUSE : N := 98.
Definition ENAMETOOLONG : N := 36.
Definition SUN_PATH : N := 108.

(* What can be seen from outside: descriptors obtained and closed, and names of sockets made and removed. *)
Inductive sk_event : Type :=
| SkOpened (fd : Z)
| SkClosed (fd : Z)
| SkNonblocking (fd : Z)
| SkBound (fd : Z) (p : path)
| SkListening (fd : Z)
| SkUnlinked (p : path).

(* The answers of the system calls; bind also fails if the name exists. *)
Record init_env : Type := mk_init { ie_socket : Z + N; ie_fcntl : cb_answer; ie_bind : cb_answer; ie_listen : cb_answer }.

(* lib/common.h:121-143 close_safely. *)
Definition sk_close (fd : Z) : list sk_event := if (fd =? -1)%Z then [] else [SkClosed fd].

(* unlink(p): p is not a name any more. *)
Definition remove_name (p : path) (names : list path) : list path := filter (fun q => negb (path_eq p q)) names.

(* lib/tran_sock.c:367-433 tran_sock_init; names are the file names that exist.  calloc succeeds. *)
Definition sock_init (nb : bool) (p : path) (names : list path) (e : init_env) : outcome Z * list path * list sk_event :=
  match ie_socket e with
  | inr er => (Err er, names, [])
  | inl fd =>
      match (if nb then ie_fcntl e else None) with
      | Some er => (Err er, names, SkOpened fd :: sk_close fd)
      | None =>
          let nbe := if nb then [SkNonblocking fd] else [] in
          if SUN_PATH <=? N.of_nat (List.length p) then (Err ENAMETOOLONG, names, SkOpened fd :: nbe ++ sk_close fd)
          else
            match (if existsb (path_eq p) names then Some EADDRINUSE else ie_bind e) with
            | Some er => (Err er, names, SkOpened fd :: nbe ++ sk_close fd)
            | None =>
                match ie_listen e with
                | Some er => (Err er, remove_name p (p :: names), SkOpened fd :: nbe ++ [SkBound fd p; SkUnlinked p] ++ sk_close fd)
                | None => (Ok fd, p :: names, SkOpened fd :: nbe ++ [SkBound fd p; SkListening fd])
                end
            end
      end
  end.

(* A device's transport: lib/tran_sock.c:46-50 with the path. *)
Record sock : Type := mk_sock { sk_path : path; sk_listen : Z; sk_tran : tran }.

(* lib/tran_sock.c:435-445 tran_sock_get_poll_fd. *)
Definition poll_fd (k : sock) : Z := if negb (tr_conn (sk_tran k) =? -1)%Z then tr_conn (sk_tran k) else sk_listen k.

(* The effects of vfu_attach_ctx and of detaching (Tran.v) on descriptors. *)
Definition of_attach (ev : list attach_event) : list sk_event :=
  flat_map (fun e => match e with AtPaired x y => [SkOpened x; SkOpened y] | AtClosed x => [SkClosed x] | AtSent _ _ => [] end) ev.

(* The devices of a process, None once destroyed, and the names that exist. *)
Record world : Type := mk_world { wo_names : list path; wo_socks : list (option sock) }.

(* What the program does: vfu_create_ctx, vfu_attach_ctx on device i (whose negotiated values are g), the loss of the
   client of device i (vfu_reset_ctx, lib/libvfio-user.c:1800-1818), vfu_destroy_ctx (lib/libvfio-user.c:1843-1870).
   WRemoved: something else removes a file name. *)
Inductive wop : Type :=
| WCreate (nb : bool) (p : path) (e : init_env)
| WAttach (i : nat) (g : nego) (a : attach_env)
| WLose (i : nat)
| WDestroy (i : nat)
| WRemoved (p : path).

(* The list with element i replaced. *)
Definition put {A} (l : list A) (i : nat) (x : A) : list A := firstn i l ++ x :: skipn (S i) l.

(* One call.  lib/libvfio-user.c:1880-1968, without its checks of the other arguments and its allocations: a device whose transport cannot be initialised is destroyed, with tran_data
   NULL, so that lib/tran_sock.c:652-683 do nothing.  Calls on a device that does not exist do nothing. *)
Definition wstep (parse : list N -> option json) (print : json -> list N) (w : world) (o : wop)
  : outcome unit * world * list sk_event :=
  match o with
  | WCreate nb p e =>
      match sock_init nb p (wo_names w) e with
      | (Ok fd, names, ev) => (Ok tt, mk_world names (wo_socks w ++ [Some (mk_sock p fd (mk_tran (-1) (-1)))]), ev)
      | (Err er, names, ev) => (Err er, mk_world names (wo_socks w), ev)
      | (Crash c, names, ev) => (Crash c, mk_world names (wo_socks w), ev)
      end
  | WAttach i g a =>
      match nth i (wo_socks w) None with
      | None => (Ok tt, w, [])
      | Some k =>
          let '(r, t, _, ev) := attach parse print (sk_tran k) g a in
          (r, mk_world (wo_names w) (put (wo_socks w) i (Some (mk_sock (sk_path k) (sk_listen k) t))),
           (if (tr_conn (sk_tran k) =? -1)%Z then match at_accept a with inl fd => [SkOpened fd] | inr _ => [] end else []) ++ of_attach ev)
      end
  | WLose i =>
      match nth i (wo_socks w) None with
      | None => (Ok tt, w, [])
      | Some k =>
          let '(t, ev) := detach (sk_tran k) in
          (Ok tt, mk_world (wo_names w) (put (wo_socks w) i (Some (mk_sock (sk_path k) (sk_listen k) t))), of_attach ev)
      end
  | WDestroy i =>
      match nth i (wo_socks w) None with
      | None => (Ok tt, w, [])
      | Some k =>
          let '(_, ev) := detach (sk_tran k) in
          (* lib/tran_sock.c:667-683 tran_sock_fini *)
          (Ok tt, mk_world (remove_name (sk_path k) (wo_names w)) (put (wo_socks w) i None),
           of_attach ev ++ [SkUnlinked (sk_path k)] ++ sk_close (sk_listen k))
      end
  | WRemoved p => (Ok tt, mk_world (remove_name p (wo_names w)) (wo_socks w), [])
  end.

(* A history of such calls. *)
Fixpoint wrun (parse : list N -> option json) (print : json -> list N) (w : world) (l : list wop) : world * list sk_event :=
  match l with
  | [] => (w, [])
  | o :: l' =>
      let '(_, w1, ev) := wstep parse print w o in
      let '(w2, ev2) := wrun parse print w1 l' in (w2, ev ++ ev2)
  end.
