(* Vocabulary for the properties of messages, version negotiation and DMA by messages. *)
From Coq Require Import NArith ZArith String List Bool.
From Verif Require Import Base Types Bytes Migr Irq Pci Handlers Server SpecServer Wire Tran.
Import ListNotations.
Open Scope N_scope.

(* Little-endian fields of a message. *)
Definition u16 (b : list N) (off : nat) : N := nth off b 0 + 256 * nth (S off) b 0.
Definition u32 (b : list N) (off : nat) : N := u16 b off + 65536 * u16 b (2 + off).
Definition u64 (b : list N) (off : nat) : N := u32 b off + 4294967296 * u32 b (4 + off).

(* The layout of a message: id, command, size, flags, error number, payload. *)
Record on_wire (b : list N) (id cmd size flags error : N) (payload : list N) : Prop := {
  ow_id : u16 b 0 = id;
  ow_cmd : u16 b 2 = cmd;
  ow_size : u32 b 4 = size;
  ow_flags : u32 b 8 = flags;
  ow_error : u32 b 12 = error;
  ow_payload : skipn 16 b = payload;
  ow_length : (16 <= length b)%nat
}.

(* A message that says its own length. *)
Definition message (b : list N) (id cmd flags error : N) (payload : list N) : Prop :=
  on_wire b id cmd (N.of_nat (length b)) flags error payload.

Definition hdr_ok (h : header) : Prop :=
  hd_id h < 65536 /\ hd_cmd h < 65536 /\ hd_size h < 4294967296 /\ hd_flags h < 4294967296 /\ hd_error h < 4294967296.

(* Requests a client may send and the bytes it sends for them. *)
Definition framed (r : header * list N) : Prop :=
  hdr_ok (fst r) /\ valid_hdr (fst r) /\ hd_size (fst r) = 16 + N.of_nat (length (snd r)) /\ bytes (snd r).
Definition stream (rs : list (header * list N)) : list N := flat_map (fun r => enc_header (fst r) ++ snd r) rs.

(* The requests the server takes off the socket in a run. *)
Definition taken (sts : list step) : list (header * list N) :=
  flat_map (fun st => match st with
                      | SRun en => match en_rx en with RxMsg h _ (inr b) => [(h, b)] | RxMsg h _ (inl _) => [(h, [])] | RxErr _ => [] end
                      | _ => []
                      end) sts.

(* Everything the client has sent so far has arrived when the server reads; the other steps are not themselves
   iterations or new connections. *)
Definition complete (a : act) : Prop :=
  match a with
  | ARun d => (16 <= dl_hdr d)%nat /\ 1024 * 1024 + 32 <= N.of_nat (dl_body d)
  | ADo st => match st with SRun _ | SAttach _ => False | _ => True end
  end.

(* Replies are sent and the quiesce callback does not postpone. *)
Definition calm (a : act) : Prop :=
  match a with
  | ARun d => en_send (dl_env d) = None /\ en_quiesce (dl_env d) <> Some EBUSY
  | ADo _ => False
  end.

(* Members of a JSON value along a path of names. *)
Fixpoint at_path (j : json) (path : list string) : option json :=
  match path with
  | [] => Some j
  | k :: path' =>
      match j with
      | JObj l => match find (fun p => String.eqb (fst p) k) l with Some (_, v) => at_path v path' | None => None end
      | _ => None
      end
  end.
Definition capability (text : option json) (path : list string) : option json :=
  match text with Some j => at_path j ("capabilities"%string :: path) | None => None end.

(* What the version message of a client says: version numbers, then nothing or a NUL-terminated JSON text. *)
Record version_msg (parse : list N -> option json) (b : list N) (id major minor : N) (text : option json) : Prop := {
  vm_msg : exists flags error, message b id 1 flags error (skipn 16 b) /\ flags mod 16 = 0;   (* a command *)
  vm_max : N.of_nat (length b) <= 1024 * 1024 + 32;
  vm_bytes : bytes b;
  vm_length : (20 <= length b)%nat;
  vm_major : u16 b 16 = major;
  vm_minor : u16 b 18 = minor;
  vm_text : ((length b = 20)%nat /\ text = Some (JObj [])) \/ ((20 < length b)%nat /\ last b 1 = 0 /\ text = parse (skipn 20 b))
}.

(* What a capability must look like to be accepted. *)
Definition is_int (o : option json) : Prop := match o with None => True | Some (JInt _ err) => err = false | _ => False end.
Definition is_bool (o : option json) : Prop := match o with None | Some (JBool _) => True | _ => False end.
Definition is_obj (o : option json) : Prop := match o with None | Some (JObj _) => True | _ => False end.
Definition caps_typed (text : option json) : Prop :=
  text <> None /\ is_obj (capability text []) /\ is_int (capability text ["max_msg_fds"%string]) /\
  is_int (capability text ["max_data_xfer_size"%string]) /\ is_obj (capability text ["migration"%string]) /\
  is_int (capability text ["migration"%string; "pgsize"%string]) /\ is_obj (capability text ["twin_socket"%string]) /\
  is_bool (capability text ["twin_socket"%string; "supported"%string]).

(* What vfu_attach_ctx needs: no client yet, a client connecting with descriptor fd, and its version message arriving. *)
Record connecting (parse : list N -> option json) (t : tran) (a : attach_env) (fd : Z) (id major minor : N) (text : option json) : Prop := {
  cn_free : tr_conn t = (-1)%Z;
  cn_fd : at_accept a = inl fd;
  cn_avail : (16 <= at_avail a)%nat;
  cn_msg : exists b rest, at_stream a = b ++ rest /\ version_msg parse b id major minor text
}.

(* Segments following one another from an address. *)
Fixpoint consecutive (a : N) (l : list (N * N)) : Prop :=
  match l with
  | [] => True
  | (b, n) :: l' => b = a /\ 0 < n /\ consecutive (a + n) l'
  end.
Definition total (l : list (N * N)) : N := fold_right (fun p t => snd p + t) 0 l.

(* The descriptors of socket pairs made, and those closed. *)
Definition pair_fds (ev : list attach_event) : list Z := flat_map (fun e => match e with AtPaired x y => [x; y] | _ => [] end) ev.
Definition closed_fds (ev : list attach_event) : list Z := flat_map (fun e => match e with AtClosed x => [x] | _ => [] end) ev.

(* Clients coming and going on one transport: the descriptors of the connections accepted, and the events. *)
Inductive visit : Type := Arrives (a : attach_env) | Leaves.
Fixpoint visits (parse : list N -> option json) (print : json -> list N) (t : tran) (g : nego) (l : list visit)
  : tran * list Z * list attach_event :=
  match l with
  | [] => (t, [], [])
  | Leaves :: l' =>
      let '(t1, ev) := detach t in
      let '(t2, acc, ev2) := visits parse print t1 g l' in (t2, acc, ev ++ ev2)
  | Arrives a :: l' =>
      let '(_, t1, g1, ev) := attach parse print t g a in
      let '(t2, acc, ev2) := visits parse print t1 g1 l' in
      (t2, match at_accept a with inl fd => if (tr_conn t <? 0)%Z then [fd] else [] | inr _ => [] end ++ acc, ev ++ ev2)
  end.
