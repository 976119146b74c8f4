(** Model of what a caller writes to get at a table of a file. *)

From Verif Require Export ModelFont.

(** [file[i]], by [dereference! { File::fonts => [Font] }], src/file.rs:24: out of bounds is
    a panic. *)
Definition file_font (this : File) (i : nat) : M Font := index (file_fonts this) i.

(** [let file = File::read(&mut tape)?; file[0].take(&mut tape)], with src/file.rs:12-24 and
    src/font.rs:49-59, as shown in src/lib.rs:15-23. *)
Definition open_take {A} (d : deps) (t : table) (m : M A) : M (option A) :=
  file <- read_file d;;
  font <- file_font file 0;;
  font_take d font t m.
