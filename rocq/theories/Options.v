(** The build configuration, on which both the code and its specification depend. *)

Record options := mkOptions {
  (** Overflow checks: true in debug builds, false (wrapping) in release builds. *)
  overflow_checks : bool;
  (** Cargo features, Cargo.toml:19-27. *)
  ignore_incomplete_directories : bool;
  ignore_incomplete_marks : bool;
  ignore_invalid_checksums : bool;
  (** Whether reading a [flags!] value refuses one with [is_invalid] bits.  That
      check is inside the dependency; every theorem holds for both answers. *)
  checked_flags : bool }.
