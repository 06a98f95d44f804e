(** * SpecOperand: how every operand may be written and the bits it stands for.

    This is the reference the operand theorems compare the model with.  It
    talks about sequences of tokens, never about cursors, states or outcomes,
    and gives bits by arithmetic.  [spells lab pc o w ks nx b r]: at address
    [pc], with labels [lab] and the word [w] built so far, the tokens [ks]
    followed by the token [nx] write operand [o], which adds the bits [b] to
    the word and the flags [r] to the reuse mask. *)
From Verif Require Import Base Float Lexer Operand Spec.
Local Open Scope string_scope.
Local Open Scope list_scope.
Open Scope Z_scope.

(** The identifier spelled [s]. *)
Definition id (s : string) : tkind := TIdent (lit s).
(** The value [n] at bit [a]. *)
Definition place (n a : N) : N := (n * 2 ^ a)%N.
Definition flag_bit (b : bool) (a : N) : N := if b then (2 ^ a)%N else 0%N.

(** [k] is entry [i] of a table of names, written with a prefix.  A name
    listed twice stands for its first position. *)
Definition entry (tbl : list string) (prefix : string) (k : tkind) (i : N) : Prop :=
  exists s, nth_error tbl (N.to_nat i) = Some s /\ k = TIdent (lit prefix ++ lit s) /\
    forall j, (j < N.to_nat i)%nat -> nth_error tbl j <> Some s.
Definition no_entry (tbl : list string) (prefix : string) (k : tkind) : Prop :=
  forall s, In s tbl -> k <> TIdent (lit prefix ++ lit s).

(** A register, with an optional [.reuse] where the position allows it. *)
Definition reuse_bit (a : N) : option N :=
  if N.eqb a 8 then Some 1%N else if N.eqb a 20 then Some 2%N else if N.eqb a 39 then Some 4%N else None.
Definition register (a : N) (ks : list tkind) (nx : tkind) (n r : N) : Prop :=
  (ks = [TReg n] /\ nx <> id ".reuse" /\ r = 0%N) \/
  (ks = [TReg n; id ".reuse"] /\ reuse_bit a = Some r).

(** Special values with an optional sign. *)
Definition signed_name (s : string) (ks : list tkind) (neg : bool) : Prop :=
  (ks = [id s] /\ neg = false) \/ (ks = [TPlus; id s] /\ neg = false) \/ (ks = [TMinus; id s] /\ neg = true).

(** Single precision values: pattern of the value. *)
Definition single (ks : list tkind) (f : N) : Prop :=
  ks = [TFloat f] \/
  (exists z, ks = [TImm z] /\ f = f32_of_Z z) \/
  (exists neg, signed_name "QNAN" ks neg /\ f = (flag_bit neg 31 + 0x7FC00000)%N) \/
  (exists neg, signed_name "INF" ks neg /\ f = (flag_bit neg 31 + 0x7F800000)%N).

(** Double precision values: magnitude and sign.  Zeros have no sign. *)
Definition double (ks : list tkind) (mag : N) (neg : bool) : Prop :=
  (exists f, ks = [TFloat f] /\ mag = (f64_of_f32 f mod 2 ^ 63)%N /\
     neg = N.testbit (f64_of_f32 f) 63 && negb (N.eqb mag 0)) \/
  (exists z, ks = [TImm z] /\ mag = (f64_of_Z z mod 2 ^ 63)%N /\ neg = (z <? 0)) \/
  (signed_name "QNAN" ks neg /\ mag = 0x7FF8000000000000%N) \/
  (signed_name "INF" ks neg /\ mag = 0x7FF0000000000000%N).

(** Half precision values: pattern of the value and the separate sign.  Zeros
    have no separate sign; the pattern of a special name has none. *)
Definition half (ks : list tkind) (h : N) (neg special : bool) : Prop :=
  (exists f, ks = [TFloat f] /\ h = fp32_to_fp16 f /\ special = false /\
     neg = N.testbit f 31 && negb (N.eqb (f mod 2 ^ 31) 0)) \/
  (exists z, ks = [TImm z] /\ h = fp32_to_fp16 (f32_of_Z z) /\ special = false /\ neg = (z <? 0)) \/
  (signed_name "QNAN" ks neg /\ h = 0x7FFF%N /\ special = true) \/
  (signed_name "INF" ks neg /\ h = 0x7C00%N /\ special = true).

(** Memory operands: an optional base register, an optional offset. *)
Definition memory (imm : bool) (addr size shr : N) (ks : list tkind) (b r : N) : Prop :=
  exists kr ki n o, ks = TLbrack :: kr ++ ki ++ [TRbrack] /\
    ((kr = [] /\ n = 255%N /\ r = 0%N) \/ (kr = [TReg n] /\ r = 0%N) \/ (kr = [TReg n; id ".reuse"] /\ r = 1%N)) /\
    ((ki = [] /\ o = 0) \/
     (imm = true /\ ki = [TImm o] /\
      (if N.eqb n 255 then 0 <= o < 2 ^ Z.of_N size
       else - 2 ^ (Z.of_N size - 1) <= o < 2 ^ (Z.of_N size - 1)))) /\
    b = N.lor (place n 8) (place (Z.to_N ((o / 2 ^ Z.of_N shr) mod 2 ^ Z.of_N size)) addr).

(** Names with values. *)
Definition rounding_same : list (string * N) :=
  [(".ROUND", 8); (".FLOOR", 9); (".CEIL", 10); (".TRUNC", 11); (".PASS", 3)]%N.
Definition rounding_convert : list (string * N) :=
  [(".RN", 0); (".RM", 1); (".RP", 2); (".RZ", 3)]%N.
Definition thread_ids : list (string * N) := [(".X", 33); (".Y", 34); (".Z", 35)]%N.
Definition block_ids : list (string * N) := [(".X", 37); (".Y", 38); (".Z", 39)]%N.
Definition global_sizes : list (string * N) :=
  [(".U8", 0); (".S8", 1); (".U16", 2); (".S16", 3); (".32", 4); (".64", 5); (".128", 6)]%N.
Definition texture_types : list (string * N) :=
  [("1D", 0); ("ARRAY_1D", 1); ("2D", 2); ("ARRAY_2D", 3); ("3D", 4); ("ARRAY_3D", 5);
   ("CUBE", 6); ("ARRAY_CUBE", 7)]%N.
Definition swizzles_one : list (string * N) :=
  [("R", 0); ("G", 1); ("B", 2); ("A", 3); ("RG", 4); ("RA", 5); ("GA", 6); ("BA", 7)]%N.
Definition swizzles_two : list (string * N) :=
  [("RGB", 0); ("RGA", 1); ("RBA", 2); ("GBA", 3); ("RGBA", 4)]%N.
Definition unlisted (l : list (string * N)) (k : tkind) : Prop := forall s v, In (s, v) l -> k <> id s.

(** TLDS: type, LL, AOFFI, MS and the code of the combination. *)
Definition tlds_codes : list (string * bool * bool * bool * N) :=
  [("1D", false, false, false, 0); ("1D", true, false, false, 1);
   ("2D", false, false, false, 2); ("2D", false, true, false, 4); ("2D", true, false, false, 5);
   ("2D", false, false, true, 6); ("2D", true, true, false, 12);
   ("3D", false, false, false, 7); ("3D", true, false, false, 7);
   ("ARRAY_2D", false, false, false, 8); ("ARRAY_2D", true, false, false, 8)]%N.
(** TEXS: type, lod mode (0 none, 1 LL, 2 LZ), DC and the code.  Mode 3 does
    not exist; the code would write nothing for it. *)
Definition texs_codes : list (string * N * bool * N) :=
  [("1D", 2, false, 0);
   ("2D", 0, false, 1); ("2D", 2, false, 2); ("2D", 1, false, 3);
   ("2D", 0, true, 4); ("2D", 1, true, 5); ("2D", 2, true, 6);
   ("ARRAY_2D", 0, false, 7); ("ARRAY_2D", 2, false, 8); ("ARRAY_2D", 2, true, 9);
   ("3D", 0, false, 10); ("3D", 2, false, 11);
   ("CUBE", 0, false, 12); ("CUBE", 1, false, 13);
   ("2D", 3, false, 0); ("2D", 3, true, 0)]%N.

(** The bits an operand clears before it writes: the payload left by the
    modifiers before a TEXS or TLDS type. *)
Definition clears (o : opnd) : N :=
  match o with
  | OTldsType a | OTexsType a => place 7 a
  | _ => 0%N
  end.

Section Spells.
  Variable lab : text -> option Z.
  Variable pc : Z.

  Fixpoint spells (o : opnd) (w : N) (ks : list tkind) (nx : tkind) (b r : N) : Prop :=
    match o with
    | OComma => ks = [TComma] /\ b = 0%N /\ r = 0%N
    | OZero => ks = [TImm 0] /\ b = 0%N /\ r = 0%N
    | ODefaultRz a => ks = [] /\ b = place 255 a /\ r = 0%N
    | OFlag s a =>
        r = 0%N /\ ((ks = [id s] /\ b = (2 ^ a)%N) \/ (ks = [] /\ nx <> id s /\ b = 0%N))
    | OPo a1 a2 =>
        r = 0%N /\ ((ks = [id ".PO"] /\ b = N.lor (2 ^ a1) (2 ^ a2)) \/ (ks = [] /\ nx <> id ".PO" /\ b = 0%N))
    | OOptType ty a =>
        r = 0%N /\ ((exists k, ks = [k] /\ type_of k = ty /\ b = (2 ^ a)%N) \/
                    (ks = [] /\ type_of nx <> ty /\ b = 0%N))
    | OOptText s => r = 0%N /\ b = 0%N /\ (ks = [id s] \/ (ks = [] /\ nx <> id s))
    | OReqText s bits _ => ks = [id s] /\ b = bits /\ r = 0%N
    | OReqTextAfter s b1 b2 _ => ks = [id s] /\ b = N.lor b1 b2 /\ r = 0%N
    (* integers *)
    | OUint max a => exists z, ks = [TImm z] /\ 0 <= z <= max /\ b = place (Z.to_N z) a /\ r = 0%N
    | OInt n a => exists z, ks = [TImm z] /\ - 2 ^ (Z.of_N n - 1) <= z < 2 ^ (Z.of_N n - 1) /\
        b = place (Z.to_N (z mod 2 ^ Z.of_N n)) a /\ r = 0%N
    | OImm20 => exists z, ks = [TImm z] /\ - 2 ^ 19 <= z < 2 ^ 19 /\
        b = N.lor (place (Z.to_N (z mod 2 ^ 19)) 20) (flag_bit (z <? 0) 56) /\ r = 0%N
    | OUimmExtended => exists z, ks = [TImm z] /\ 0 <= z <= 2 ^ 20 /\
        b = N.lor (flag_bit (2 ^ 19 <=? z) 56) (place (Z.to_N (if 2 ^ 19 <=? z then z - 2 ^ 19 else z)) 20) /\
        r = 0%N
    | OLabel => exists target,
        ((exists name, ks = [TIdent name] /\ lab name = Some target) \/ ks = [TImm target]) /\
        (let d := target - (pc + 8) in - 2 ^ 23 <= d < 2 ^ 23 /\ b = place (Z.to_N (d mod 2 ^ 24)) 20) /\ r = 0%N
    (* tables of names *)
    | ODotTable d a tbl =>
        r = 0%N /\ ((exists k i, ks = [k] /\ entry tbl "." k i /\ b = place i a) \/
                    (exists i, ks = [] /\ no_entry tbl "." nx /\ d = Some i /\ b = place i a))
    | OReqTable p a tbl _ => exists k i, ks = [k] /\ entry tbl p k i /\ b = place i a /\ r = 0%N
    | OCcTests tests a =>
        r = 0%N /\ ((exists k i, ks = [id "CC"; k] /\ entry tests "." k i /\ b = place i a) \/
                    (ks = [] /\ nx <> id "CC" /\ b = place 15 a))
    | OIntFormat u sg a sa _ => exists k i, ks = [k] /\ r = 0%N /\
        ((entry u "." k i /\ b = place i a) \/
         (no_entry u "." k /\ entry sg "." k i /\ b = N.lor (2 ^ sa) (place i a)))
    | OSelector ta short shorts a =>
        let tbl := if N.eqb (field w ta 3) short then shorts else ["B0"; "B1"; "B2"; "B3"] in
        r = 0%N /\ ((exists k i, ks = [k] /\ entry tbl "." k i /\ b = place i a) \/
                    (ks = [] /\ no_entry tbl "." nx /\ b = 0%N))
    | OSrcFormat a sa =>
        let signed := ["S8"; ""; "S16"; "S32"] in let unsigned := ["U8"; ""; "U16"; "U32"] in
        r = 0%N /\
        ((exists k i, ks = [k] /\ entry signed "." k i /\ b = N.lor (place i a) (2 ^ sa)) \/
         (exists k i, ks = [k] /\ no_entry signed "." k /\ entry unsigned "." k i /\ b = place i a) \/
         (ks = [] /\ no_entry signed "." nx /\ no_entry unsigned "." nx /\ b = N.lor (place 3 a) (2 ^ sa)))
    | OF2fRounding =>
        let l := if N.eqb (field w 8 2) (field w 10 2) then rounding_same else rounding_convert in
        r = 0%N /\ ((exists s v, In (s, v) l /\ ks = [id s] /\ b = place v 39) \/
                    (ks = [] /\ unlisted l nx /\ b = 0%N))
    | OS2r tbl =>
        r = 0%N /\
        ((exists s v, In (s, v) thread_ids /\ ks = [id "SR_TID"; id s] /\ b = place v 20) \/
         (ks = [id "SR_TID"] /\ unlisted thread_ids nx /\ b = place 32 20) \/
         (exists s v, In (s, v) block_ids /\ ks = [id "SR_CTAID"; id s] /\ b = place v 20) \/
         (exists k i, ks = [k] /\ k <> id "SR_TID" /\ k <> id "SR_CTAID" /\ entry tbl "" k i /\ b = place i 20))
    | OLdgSize =>
        r = 0%N /\
        ((exists s v, In (s, v) global_sizes /\ ks = [id s] /\ b = place v 48) \/
         (ks = [id ".U"; id ".128"] /\ b = place 7 48) \/
         (ks = [] /\ (forall s, nx <> TIdent ("."%char :: s)) /\ b = place 4 48))
    | OAtomicSize a =>
        r = 0%N /\
        ((exists s v, In (s, v) [(".U32", 0); (".S32", 1); (".U64", 2); (".S64", 5)]%N /\ ks = [id s] /\ b = place v a) \/
         (ks = [id ".F32"; id ".FTZ"; id ".RN"] /\ b = place 3 a) \/
         (ks = [id ".F16x2"; id ".RN"] /\ b = place 4 a) \/
         (ks = [] /\ no_entry ["U32"; "S32"; "U64"; "F32"; "F16x2"; "S64"] "." nx /\ b = 0%N))
    | OTexType a => exists s v, In (s, v) texture_types /\ ks = [id s] /\ b = place v a /\ r = 0%N
    | OXmadSigns =>
        r = 0%N /\
        ((exists s1 s2, ks = [id (if s1 : bool then ".S16" else ".U16"); id (if s2 : bool then ".S16" else ".U16")] /\
            b = N.lor (flag_bit s1 48) (flag_bit s2 49)) \/
         (ks = [] /\ nx <> id ".S16" /\ nx <> id ".U16" /\ b = 0%N))
    | OTexsMode a => exists kl kd lod dc, ks = kl ++ kd /\ b = place (lod + dc) a /\ r = 0%N /\
        ((kl = [id ".LZ"] /\ lod = 2%N) \/ (kl = [id ".LL"] /\ lod = 1%N) \/
         (kl = [] /\ lod = 0%N /\ hd nx kd <> id ".LZ" /\ hd nx kd <> id ".LL")) /\
        ((kd = [id ".DC"] /\ dc = 4%N) \/ (kd = [] /\ dc = 0%N /\ nx <> id ".DC"))
    | OTldsType a => exists s code,
        In (s, N.testbit w a, N.testbit w (a + 1), N.testbit w (a + 2), code) tlds_codes /\
        ks = [id s] /\ b = place code a /\ r = 0%N
    | OTexsType a => exists s code, In (s, field w a 2, N.testbit w (a + 2), code) texs_codes /\
        ks = [id s] /\ b = place code 53 /\ r = 0%N
    | OTexsSwizzle => exists s v,
        In (s, v) (if N.eqb (field w 28 8) 255 then swizzles_one else swizzles_two) /\
        ks = [id s] /\ b = place v 50 /\ r = 0%N
    (* registers and predicates *)
    | OGpr a => exists n, register a ks nx n r /\ b = place n a
    | OMirrorGpr a => exists n, register a ks nx n r /\ n = field w a 8 /\ b = 0%N
    | OPred a negable => exists i neg, ks = [TPred i neg] /\ r = 0%N /\
        (if negable then b = N.lor (place i a) (flag_bit neg (a + 3)) else neg = false /\ b = place i a)
    | OInvPred a => exists i, ks = [TPred i false] /\ b = place (7 - i) a /\ r = 0%N
    | OAbs a inner =>
        (exists ks' b', ks = TVbar :: ks' ++ [TVbar] /\ spells inner (N.lor w (2 ^ a)) ks' TVbar b' r /\
           b = N.lor (2 ^ a) b') \/
        (hd nx ks <> TVbar /\ spells inner w ks nx b r)
    (* floating point *)
    | OFimm n => exists f, single ks f /\ r = 0%N /\
        (if N.eqb n 20 then b = N.lor (place (f mod 2 ^ 31 / 2 ^ 12) 20) (place (f / 2 ^ 31) 56)
         else b = place f 20)
    | ODimm => exists mag neg, double ks mag neg /\ b = N.lor (place (mag / 2 ^ 44) 20) (flag_bit neg 56) /\ r = 0%N
    | OHalf n a nb => exists h neg special, half ks h neg special /\ r = 0%N /\
        match nb with
        | Some s => b = N.lor (flag_bit neg s) (if N.eqb n 9 then place (h mod 2 ^ 15 / 2 ^ 6) a else place h a)
        | None =>
            let h := if special && neg then (h + 0x8000)%N else h in
            b = (if N.eqb n 9 then place (h mod 2 ^ 15 / 2 ^ 6) a else place h a)
        end
    (* memory *)
    | OCbuf => exists bank off,
        ks = [id "c"; TLbrack; TImm bank; TRbrack; TLbrack; TImm off; TRbrack] /\
        0 <= bank < 32 /\ - 2 ^ 15 <= off < 2 ^ 15 /\ off mod 4 = 0 /\
        b = N.lor (place (Z.to_N bank) 34) (place (Z.to_N (off mod 2 ^ 16 / 4)) 20) /\ r = 0%N
    | OMemAddress imm addr size shr => memory imm addr size shr ks b r
    | OLdcAddress => exists bank km b', ks = id "c" :: TLbrack :: TImm bank :: TRbrack :: km /\
        0 <= bank < 32 /\ memory true 20 16 0 km b' r /\ b = N.lor (place (Z.to_N bank) 36) b'
    | OImmAttr => exists z, ks = [id "a"; TLbrack; TImm z; TRbrack] /\ 0 <= z < 2 ^ 10 /\
        b = N.lor (place (Z.to_N z) 20) (place 255 8) /\ r = 0%N
    | OPatchAttr => exists kr kp z n, ks = id "a" :: TLbrack :: kr ++ kp ++ [TImm z; TRbrack] /\
        register 8 kr TNone n r /\ (kp = [] \/ kp = [TPlus]) /\ - 2 ^ 10 <= z < 2 ^ 10 /\
        b = N.lor (place n 8) (place (Z.to_N (z mod 2 ^ 11)) 20)
    | OPhysAttr => exists kr n, ks = id "a" :: TLbrack :: kr ++ [TRbrack] /\ register 8 kr TRbrack n r /\
        b = place n 8
    end.
End Spells.

(** ** Whole operand lists *)

(** Operands one after the other.  [w'] is the word afterwards. *)
Inductive spell_list (lab : text -> option Z) (pc : Z) (nx : tkind)
  : list opnd -> N -> list tkind -> N -> N -> Prop :=
| spell_nil : forall w, spell_list lab pc nx [] w [] w 0
| spell_cons : forall o ops w ks1 ks2 b r1 r2 w',
    spells lab pc o w ks1 (hd nx ks2) b r1 ->
    spell_list lab pc nx ops (N.lor (N.ldiff w (clears o)) b) ks2 w' r2 ->
    spell_list lab pc nx (o :: ops) w (ks1 ++ ks2) w' (N.lor r1 r2).

(** ** Scheduling annotations *)

Inductive note := Stall (n : Z) | WriteBarrier (n : Z) | ReadBarrier (n : Z) | Wait (n : Z) | Yield.
Definition note_tokens (x : note) (ks : list tkind) : Prop :=
  match x with
  | Stall n => ks = [TAt; id "WAIT"; TImm n]
  | WriteBarrier n => ks = [TAt; id "WB"; TImm n]
  | ReadBarrier n => ks = [TAt; id "RB"; TImm n]
  | Wait n => ks = [TAt; id "DEP"; TImm n]
  | Yield => ks = [TAt; id "Y"] \/ ks = [TAt; id "YIELD"]
  end.
Definition note_range (x : note) : Prop :=
  match x with
  | Stall n => 0 <= n <= 15
  | WriteBarrier n | ReadBarrier n | Wait n => 0 <= n <= 5
  | Yield => True
  end.
(** Notes that exclude each other: the same note, except for different
    barriers of [Wait]. *)
Definition same_note (x y : note) : Prop :=
  match x, y with
  | Stall _, Stall _ | WriteBarrier _, WriteBarrier _ | ReadBarrier _, ReadBarrier _ | Yield, Yield => True
  | Wait n, Wait m => n = m
  | _, _ => False
  end.
Inductive notes_ok : list note -> Prop :=
| notes_nil : notes_ok []
| notes_cons : forall x l, note_range x -> Forall (fun y => ~ same_note x y) l -> notes_ok l -> notes_ok (x :: l).
Inductive notes_tokens : list note -> list tkind -> Prop :=
| ntok_nil : notes_tokens [] []
| ntok_cons : forall x l k ks, note_tokens x k -> notes_tokens l ks -> notes_tokens (x :: l) (k ++ ks).

(** The scheduling record: stall in bits 0..3, yield in bit 4, write barrier
    in bits 5..7, read barrier in bits 8..10 (7 = none), waits in bits 11..16. *)
Definition note_bits (x : note) : N :=
  match x with
  | Stall n => Z.to_N n
  | Yield => 16
  | Wait n => 2 ^ (11 + Z.to_N n)
  | _ => 0
  end%N.
Fixpoint barrier_of (pick : note -> option Z) (l : list note) : N :=
  match l with
  | [] => 7%N
  | x :: l => match pick x with Some n => Z.to_N n | None => barrier_of pick l end
  end.
Definition write_of (x : note) : option Z := match x with WriteBarrier n => Some n | _ => None end.
Definition read_of (x : note) : option Z := match x with ReadBarrier n => Some n | _ => None end.
Definition notes_record (l : list note) : N :=
  (fold_right (fun x acc => note_bits x + acc) 0 l
   + barrier_of write_of l * 2 ^ 5 + barrier_of read_of l * 2 ^ 8)%N.
