(** * mpp-front/src/lib/traslator/operations.json
    The 88 entries, in the order of the file, with the strings as in the file
    (JSON escapes resolved). *)
From Coq Require Import ZArith List String.
Import ListNotations.
Open Scope Z_scope.
Open Scope string_scope.

(** [interface Instruction], traslator/index.ts:23-29. *)
Record instruction := mkIns { HEX : string; NEMO : string; REGEX : string; GRUPO : Z; ALLOC : Z }.

(** operations.json:1-617. *)
Definition operations : list instruction := [
  mkIns "00" "MOV RB, RB" "^(MOV)\s(RB),\s?(RB)$" 1 1;
  mkIns "01" "MOV RC, RB" "^(MOV)\s(RC),\s?(RB)$" 1 1;
  mkIns "02" "MOV RD, RB" "^(MOV)\s(RD),\s?(RB)$" 1 1;
  mkIns "03" "MOV RE, RB" "^(MOV)\s(RE),\s?(RB)$" 1 1;
  mkIns "04" "MOV RB, RC" "^(MOV)\s(RB),\s?(RC)$" 1 1;
  mkIns "05" "MOV RC, RC" "^(MOV)\s(RC),\s?(RC)$" 1 1;
  mkIns "06" "MOV RD, RC" "^(MOV)\s(RD),\s?(RC)$" 1 1;
  mkIns "07" "MOV RE, RC" "^(MOV)\s(RE),\s?(RC)$" 1 1;
  mkIns "08" "MOV RB, RD" "^(MOV)\s(RB),\s?(RD)$" 1 1;
  mkIns "09" "MOV RC, RD" "^(MOV)\s(RC),\s?(RD)$" 1 1;
  mkIns "0A" "MOV RD, RD" "^(MOV)\s(RD),\s?(RD)$" 1 1;
  mkIns "0B" "MOV RE, RD" "^(MOV)\s(RE),\s?(RD)$" 1 1;
  mkIns "0C" "MOV RB, RE" "^(MOV)\s(RB),\s?(RE)$" 1 1;
  mkIns "0D" "MOV RC, RE" "^(MOV)\s(RC),\s?(RE)$" 1 1;
  mkIns "0E" "MOV RD, RE" "^(MOV)\s(RD),\s?(RE)$" 1 1;
  mkIns "0F" "MOV RE, RE" "^(MOV)\s(RE),\s?(RE)$" 1 1;
  mkIns "10" "MOV RB, AC" "^(MOV)\s(RB),\s?(AC)$" 1 1;
  mkIns "11" "MOV RC, AC" "^(MOV)\s(RC),\s?(AC)$" 1 1;
  mkIns "12" "MOV RD, AC" "^(MOV)\s(RD),\s?(AC)$" 1 1;
  mkIns "13" "MOV RE, AC" "^(MOV)\s(RE),\s?(AC)$" 1 1;
  mkIns "18" "SUB RB" "^(SUB)\s(RB)$" 2 1;
  mkIns "19" "SUB RC" "^(SUB)\s(RC)$" 2 1;
  mkIns "1A" "SUB RD" "^(SUB)\s(RD)$" 2 1;
  mkIns "1B" "SUB RE" "^(SUB)\s(RE)$" 2 1;
  mkIns "1C" "CMP RB" "^(CMP)\s(RB)$" 2 1;
  mkIns "1D" "CMP RC" "^(CMP)\s(RC)$" 2 1;
  mkIns "1E" "CMP RD" "^(CMP)\s(RD)$" 2 1;
  mkIns "1F" "CMP RE" "^(CMP)\s(RE)$" 2 1;
  mkIns "20" "AND RB" "^(AND)\s(RB)$" 2 1;
  mkIns "21" "AND RC" "^(AND)\s(RC)$" 2 1;
  mkIns "22" "AND RD" "^(AND)\s(RD)$" 2 1;
  mkIns "23" "AND RE" "^(AND)\s(RE)$" 2 1;
  mkIns "24" "OR RB" "^(OR)\s(RB)$" 2 1;
  mkIns "25" "OR RC" "^(OR)\s(RC)$" 2 1;
  mkIns "26" "OR RD" "^(OR)\s(RD)$" 2 1;
  mkIns "27" "OR RE" "^(OR)\s(RE)$" 2 1;
  mkIns "28" "XOR RB" "^(XOR)\s(RB)$" 2 1;
  mkIns "29" "XOR RC" "^(XOR)\s(RC)$" 2 1;
  mkIns "2A" "XOR RD" "^(XOR)\s(RD)$" 2 1;
  mkIns "2B" "XOR RE" "^(XOR)\s(RE)$" 2 1;
  mkIns "2C" "INC RB" "^(INC)\s(RB)$" 2 1;
  mkIns "2D" "INC RC" "^(INC)\s(RC)$" 2 1;
  mkIns "2E" "INC RD" "^(INC)\s(RD)$" 2 1;
  mkIns "2F" "INC RE" "^(INC)\s(RE)$" 2 1;
  mkIns "30" "ADD RB" "^(ADD)\s(RB)$" 2 1;
  mkIns "31" "ADD RC" "^(ADD)\s(RC)$" 2 1;
  mkIns "32" "ADD RD" "^(ADD)\s(RD)$" 2 1;
  mkIns "33" "ADD RE" "^(ADD)\s(RE)$" 2 1;
  mkIns "40" "MOV AC, RB" "^(MOV)\s(AC),\s?(RB)$" 3 1;
  mkIns "41" "MOV AC, RC" "^(MOV)\s(AC),\s?(RC)$" 3 1;
  mkIns "42" "MOV AC, RD" "^(MOV)\s(AC),\s?(RD)$" 3 1;
  mkIns "43" "MOV AC, RE" "^(MOV)\s(AC),\s?(RE)$" 3 1;
  mkIns "44" "MOV AC, AC" "^(MOV)\s(AC),\s?(AC)$" 3 1;
  mkIns "45" "ADD AC" "^(ADD)\s(AC)$" 3 1;
  mkIns "46" "SUB AC" "^(SUB)\s(AC)$" 3 1;
  mkIns "47" "CMP AC" "^(CMP)\s(AC)$" 3 1;
  mkIns "48" "AND AC" "^(AND)\s(AC)$" 3 1;
  mkIns "49" "OR AC" "^(OR)\s(AC)$" 3 1;
  mkIns "4A" "XOR AC" "^(XOR)\s(AC)$" 3 1;
  mkIns "4B" "INC AC" "^(INC)\s(AC)$" 3 1;
  mkIns "80" "CMA" "^(CMA)$" 3 1;
  mkIns "60" "MOV inm, RB" "^(MOV)\s(\w{1,}),\s?(RB)$" 4 2;
  mkIns "61" "MOV inm, RC" "^(MOV)\s(\w{1,}),\s?(RC)$" 4 2;
  mkIns "62" "MOV inm, RD" "^(MOV)\s(\w{1,}),\s?(RD)$" 4 2;
  mkIns "63" "MOV inm, RE" "^(MOV)\s(\w{1,}),\s?(RE)$" 4 2;
  mkIns "64" "MOV inm, AC" "^(MOV)\s(\w{1,}),\s?(AC)$" 4 2;
  mkIns "65" "ADD inm" "^(ADD)\s(\w{1,})$" 4 2;
  mkIns "66" "SUB inm" "^(SUB)\s(\w{1,})$" 4 2;
  mkIns "67" "CMP inm" "^(CMP)\s(\w{1,})$" 4 2;
  mkIns "68" "AND inm" "^(AND)\s(\w{1,})$" 4 2;
  mkIns "69" "OR inm" "^(OR)\s(\w{1,})$" 4 2;
  mkIns "6A" "XOR inm" "^(XOR)\s(\w{1,})$" 4 2;
  mkIns "70" "LDA dir" "^(LDA)\s(\w{1,})$" 5 3;
  mkIns "71" "STA dir" "^(STA)\s(\w{1,})$" 5 3;
  mkIns "90" "STAX" "^(STAX)$" 5 1;
  mkIns "B0" "LDAX" "^(LDAX)$" 5 1;
  mkIns "C1" "PUSH" "^(PUSH)$" 5 1;
  mkIns "C2" "POP" "^(POP)$" 5 1;
  mkIns "C3" "INISP dir" "^(INISP)\s(\w{1,})$" 5 3;
  mkIns "72" "BEQ dir" "^(BEQ)\s(\w{1,})$" 6 3;
  mkIns "73" "BC dir" "^(BC)\s(\w{1,})$" 6 3;
  mkIns "74" "JMP dir" "^(JMP)\s(\w{1,})$" 6 3;
  mkIns "81" "LFA" "^(LFA)$" 6 1;
  mkIns "82" "SFA" "^(SFA)$" 6 1;
  mkIns "C4" "CALL dir" "^(CALL)\s(\w{1,})$" 6 3;
  mkIns "C5" "RET" "^(RET)$" 6 1;
  mkIns "C0" "IRET" "^(IRET)$" 6 1;
  mkIns "FF" "FIN" "^(FIN)$" 0 1].
