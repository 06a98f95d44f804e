(** * Device: files that are not plain ones.

    [Assemble.cli_main] assumes that a file that can be opened is read and
    written as a whole.  Here the device may answer anything. *)
From Verif Require Import Base Float Lexer Parse Assemble.
Local Open Scope string_scope.
Local Open Scope list_scope.
Open Scope Z_scope.

(** What the streams see.  [input]: a file that opens, with the position
    [tellg] gives at its end (-1 when seeking fails) and the bytes that can be
    read from its start.  [room]: how many bytes can be written to a file that
    opens for writing. *)
Record device := Device { input : text -> option (Z * text); room : text -> option nat }.

(** src/command_line.cpp:10-22.  The position becomes the length of a string
    of blanks: [limit] is the longest string that can be allocated; beyond it
    (and for -1, converted to [size_t]) the constructor throws, and nothing
    catches.  [read] puts what there is at the front; its failure bit is not
    looked at. *)
Definition read_device (limit : Z) (d : device) (name : text) : res text :=
  match input d name with
  | None => Undef UB_null_format
  | Some (size, data) =>
      if (size <? 0) || (limit <? size) then Abort "uncaught std::length_error"
      else let got := firstn (Z.to_nat size) data in
           Ok (got ++ repeat " "%char (Z.to_nat size - List.length got))
  end.

(** src/command_line.cpp:24-64.  The second component is the file that was
    opened for writing, with its bytes at the end.  [write] and the destructor
    (55-60) drop errors, as exceptions are not switched on; the handler at 61
    is for exceptions the streams never throw. *)
Definition device_main (asserts : bool) (limit : Z) (args : list text) (d : device) : res unit * option (text * text) :=
  let r :=
    let* (input, output) := parse_args args None None in
    match input with
    | None => fatal_plain "no input file"
    | Some input_file =>
        match output with
        | None => fatal_plain "no output file"
        | Some output_file =>
            let* input_text := read_device limit d input_file in
            let* bin := assemble asserts (c_string input_text) in
            match room d output_file with
            | Some n => Ok (output_file, firstn n (words_to_bytes bin))
            | None => fatal_plain (open_message output_file)
            end
        end
    end in
  match r with
  | Ok p => (Ok tt, Some p)
  | Err e => (Err e, None)
  | Fatal e => (Fatal e, None)
  | Abort s => (Abort s, None)
  | Undef u => (Undef u, None)
  | OutOfFuel => (OutOfFuel, None)
  end.
