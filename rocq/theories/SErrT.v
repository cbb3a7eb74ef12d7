(** Specification of the diagnostics of the transport layers. *)
From Coq Require Import String.
From Coq Require Import List.
From Verif Require Import CBase CStr MRecv SErr.
Local Open Scope Z_scope.

(** TCP: the error text for each result of a receive call (None: none, the text stays). *)
Definition tcp_text (c : Z) : option (list Z) :=
  if c =? RECV_INVALID then Some (cstr "M-Bus layer failed to parse data.")
  else if c =? RECV_TIMEOUT then Some (cstr "M-Bus tcp transport layer response timeout has been reached.")
  else if c =? RECV_RESET then Some (cstr "M-Bus tcp transport layer connection closed by remote host.")
  else if c =? RECV_ERROR then Some (cstr "M-Bus tcp transport layer failed to read data.")
  else None.
(** From the text [e] the new text [e'] results from saying [m], or nothing. *)
Definition told (e : list Z) (m : option (list Z)) (e' : list Z) : Prop :=
  match m with None => e' = e | Some m => says e' m end.

(** Serial line: result, bytes received, text before and after, output on stderr. *)
Inductive serial_told (e : list Z) : Z -> list Z -> list Z -> list Z -> Prop :=
| ST_ok got : serial_told e RECV_OK got e []
| ST_silence e' : says e' (cstr "Got null pointer to frame, data or zero data_size.") -> serial_told e RECV_TIMEOUT [] e' []
| ST_fault got r m e' : got <> [] -> telegram_fault got r m -> says e' m -> serial_told e RECV_INVALID got e' []
| ST_cut got : got <> [] -> (forall r m, ~ telegram_fault got r m) ->
    serial_told e RECV_INVALID got e (cstr "mbus_serial_recv_frame: Timeout" ++ [10])
| ST_error got : serial_told e RECV_ERROR got e [].
