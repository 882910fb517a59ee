(* Vocabulary for the properties of the listening socket. *)
From Coq Require Import NArith ZArith String List Bool.
From Verif Require Import Base Types Server Wire Tran Sock.
Import ListNotations.
Open Scope N_scope.

(* The descriptors obtained and closed, and the names made and removed. *)
Definition opened (ev : list sk_event) : list Z := flat_map (fun e => match e with SkOpened x => [x] | _ => [] end) ev.
Definition closed_sk (ev : list sk_event) : list Z := flat_map (fun e => match e with SkClosed x => [x] | _ => [] end) ev.
Definition bound (ev : list sk_event) : list path := flat_map (fun e => match e with SkBound _ p => [p] | _ => [] end) ev.
Definition unlinked (ev : list sk_event) : list path := flat_map (fun e => match e with SkUnlinked p => [p] | _ => [] end) ev.

(* The devices that exist, the descriptors they hold and the names of their sockets. *)
Definition devices (w : world) : list sock := flat_map (fun o => match o with Some k => [k] | None => [] end) (wo_socks w).
Definition holds (w : world) : list Z := flat_map (fun k => [sk_listen k; tr_conn (sk_tran k); tr_cmd (sk_tran k)]) (devices w).
Definition paths (w : world) : list path := map sk_path (devices w).

(* System calls that succeed answer descriptors, which are not negative; the path of a device is not empty. *)
Definition valid_op (o : wop) : Prop :=
  match o with
  | WCreate _ p e => p <> [] /\ match ie_socket e with inl fd => (0 <= fd)%Z | inr _ => True end
  | WAttach _ _ a => match at_accept a with inl fd => (0 <= fd)%Z | inr _ => True end /\
                     match at_pair a with inl (x, y) => (0 <= x)%Z /\ (0 <= y)%Z | inr _ => True end
  | _ => True
  end.

(* Nothing but the library removes names. *)
Definition undisturbed (o : wop) : Prop := match o with WRemoved _ => False | _ => True end.
Definition times_path (p : path) (l : list path) : nat := count_occ (list_eq_dec N.eq_dec) l p.

(* What vfu_create_ctx needs to be able to listen at p. *)
Record can_listen (nb : bool) (p : path) (names : list path) (e : init_env) (fd : Z) : Prop := {
  cl_socket : ie_socket e = inl fd;
  cl_fcntl : nb = true -> ie_fcntl e = None;
  cl_short : (length p < 108)%nat;
  cl_free : ~ In p names;
  cl_bind : ie_bind e = None;
  cl_listen : ie_listen e = None
}.

(* Why it fails, with the errno: the first of the things above that does not hold. *)
Definition cannot_listen (nb : bool) (p : path) (names : list path) (e : init_env) (er : N) : Prop :=
  ie_socket e = inr er \/
  (exists fd, ie_socket e = inl fd /\ nb = true /\ ie_fcntl e = Some er) \/
  (exists fd, ie_socket e = inl fd /\ (nb = true -> ie_fcntl e = None) /\
     ((108 <= length p)%nat /\ er = 36 \/
      (length p < 108)%nat /\ In p names /\ er = 98 \/
      (length p < 108)%nat /\ ~ In p names /\ ie_bind e = Some er \/
      (length p < 108)%nat /\ ~ In p names /\ ie_bind e = None /\ ie_listen e = Some er)).
