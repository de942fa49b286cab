(** The public API (/repo/src/lib.rs:386-404). *)
From Verif Require Export Parser.

(** A caller-owned [String]: its UTF-8 bytes and capacity. *)
(** The parameter [result] of /repo/src/lib.rs:399. *)
Definition string_buf := buf.

(** [String::clear]. *)
(** /repo/src/demangler.rs:269 and /repo/src/lib.rs:402. *)
Definition clear (b : string_buf) : string_buf := mkBuf [] (b_cap b).

(** [Demangler::parse_into], /repo/src/demangler.rs:264-292, together with the [clear] of
    [demangle_into]: the outcome and the buffer afterwards.  On [Panic]/[Fuel] the buffer is
    unspecified (left as it was).  [mem::take] leaves an empty string in [result] until the
    buffer is put back. *)
Definition demangle_into_with (E : env) (s : str) (result : string_buf) : res unit * string_buf :=
  let result := clear result in
  match parse E s with
  | Err e => (Err e, result)
  | Panic => (Panic, result)
  | Fuel => (Fuel, result)
  | Ok (h, t) =>
    match output E (s_store t) KSym h result with
    | (ob, Ok tt) =>
      match from_utf8 (b_bytes ob) with
      | Some _ => (Ok tt, ob)
      | None => (Err Utf8Error, clear ob)
      end
    | (ob, Err e) => (Err e, clear ob)
    | (ob, Panic) => (Panic, ob)
    | (ob, Fuel) => (Fuel, ob)
    end
  end.

(** [demangle_into], /repo/src/lib.rs:398-404: with the limits of the code. *)
Definition demangle_into (E : env) (s : str) (result : string_buf) : res unit * string_buf :=
  demangle_into_with (code_limits E) s result.

(** [demangle], /repo/src/lib.rs:386-396: [String::default] has capacity 0; the resulting
    [String] is presented as its characters. *)
Definition demangle_with (E : env) (s : str) : res str :=
  match demangle_into_with E s (mkBuf [] 0) with
  | (Ok tt, b) => match from_utf8 (b_bytes b) with Some t => Ok t | None => Panic end
  | (Err e, _) => Err e
  | (Panic, _) => Panic
  | (Fuel, _) => Fuel
  end.

Definition demangle (E : env) (s : str) : res str := demangle_with (code_limits E) s.

(** A concrete environment used by examples and tests: given flags, non-ASCII characters
    count as alphanumeric, [Vec] doubles its capacity with a minimum of 8. *)
Definition env_of (flags : N) : env :=
  {| e_flags := flags; e_alnum := fun _ => true; e_grow := whole (fun cap _ => N.max 8 (2 * cap));
     e_nodes := max_nodes; e_out := out_limit |}.
