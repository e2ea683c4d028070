(** The words [parse_extension] assigns to each extension, as bit patterns. *)
From Coq Require Import ZArith List Bool String.
From Verif Require Import Types Spec.
Import ListNotations.
Local Open Scope string_scope.

(** A word is in one of the encodings. *)
Definition among (l : list enc) (w : Z) : Prop := exists e, In e l /\ in_enc e w = true.

Definition counter_words : list string :=
  ["1100000 00000 ..... 010 ..... 1110011"; "1100000 00001 ..... 010 ..... 1110011";
   "1100000 00010 ..... 010 ..... 1110011"; "1100100 00000 ..... 010 ..... 1110011";
   "1100100 00001 ..... 010 ..... 1110011"; "1100100 00010 ..... 010 ..... 1110011"].
Definition atomic_words : list string :=
  ["00000.. ..... ..... ... ..... 0101111"; "00001.. ..... ..... ... ..... 0101111";
   "00010.. ..... ..... ... ..... 0101111"; "00011.. ..... ..... ... ..... 0101111";
   "00100.. ..... ..... ... ..... 0101111"; "01000.. ..... ..... ... ..... 0101111";
   "01100.. ..... ..... ... ..... 0101111"; "10000.. ..... ..... ... ..... 0101111";
   "10100.. ..... ..... ... ..... 0101111"; "11000.. ..... ..... ... ..... 0101111";
   "11100.. ..... ..... ... ..... 0101111"].

Definition assigned (x : Extensions) : list enc :=
  match x with
  | EM => [only ["0000001 ..... ..... ... ..... 0110011"; "0000001 ..... ..... ... ..... 0111011"]]
  | EA => [only atomic_words]
  | EZifencei => [only ["....... ..... ..... 000 ..... 0001111"]]
  | EZicboz => [only ["....... ..... ..... 010 ..... 0001111"]]
  | EZicfiss => [only ["01001.. ..... ..... ... ..... 0101111"; "....... ..... ..... 100 ..... 1110011"]]
  | EZicntr => [only counter_words]
  | EZicsr => [but ["....... ..... ..... ..1 ..... 1110011"; "....... ..... ..... .10 ..... 1110011"]
                   counter_words]
  | EPriv => [but ["....... ..... ..... 000 ..... 1110011"] ["0000000 ..... ..... 000 ..... 1110011"]]
  | EC => []
  | EBaseI =>
      [(* every major opcode but MISC-MEM, AMO, OP-32 and SYSTEM, and without the words of M *)
       but ["....... ..... ..... ... ..... ......."]
           ["....... ..... ..... ... ..... 0001111"; "....... ..... ..... ... ..... 0101111";
            "....... ..... ..... ... ..... 0111011"; "....... ..... ..... ... ..... 1110011";
            "0000001 ..... ..... ... ..... 0110011"];
       only ["0000000 ..... ..... ... ..... 0111011"; "0100000 ..... ..... ... ..... 0111011";
             "0000000 ..... ..... 000 ..... 1110011"]]
  end.

(** The others. *)
Definition unassigned : list enc :=
  [but ["....... ..... ..... ... ..... 0001111"]
       ["....... ..... ..... 000 ..... 0001111"; "....... ..... ..... 010 ..... 0001111"];
   but ["....... ..... ..... ... ..... 0101111"] ("01001.. ..... ..... ... ..... 0101111" :: atomic_words);
   but ["....... ..... ..... ... ..... 0111011"]
       ["0000000 ..... ..... ... ..... 0111011"; "0000001 ..... ..... ... ..... 0111011";
        "0100000 ..... ..... ... ..... 0111011"]].
