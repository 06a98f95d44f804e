(** * SpecDevice: what a run may leave on a device. *)
From Verif Require Import Base Device SpecCli.
Local Open Scope list_scope.
Open Scope Z_scope.

(** The file [name] of [d], of size [size], is read as [t]: the bytes there
    are, then blanks. *)
Definition read_as (limit : Z) (d : device) (name t : text) : Prop :=
  exists size data got pad, input d name = Some (size, data) /\ 0 <= size <= limit /\ Z.of_nat (List.length t) = size /\
    t = got ++ pad /\ (exists more, data = got ++ more) /\ Forall (fun ch => ch = " "%char) pad /\
    (pad = [] \/ data = got).
(** The output is the first [n] bytes of the words. *)
Definition cut_off (n : nat) (bin : list N) (out : text) : Prop :=
  exists all more, little_endian bin all /\ all = out ++ more /\ (List.length out = n /\ (n <= List.length all)%nat \/ more = [] /\ (List.length all <= n)%nat).
