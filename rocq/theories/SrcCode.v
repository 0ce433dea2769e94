(** Generated by tools/gen_srccode.py from the text of the Go sources. Do not edit.
    The syntax trees of the functions of the package; [SrcAst] explains the constructors. *)
Require Import ZArith String List.
From Verif Require Import SrcAst.
Import ListNotations.
Open Scope string_scope. Open Scope Z_scope.

(** fqrepr.go:17-19 *)
Definition src_FQRepr_IsOdd : func := mkFunc [("f", "FQRepr")] [("_", "bool")]
  [SRet [(EBin "==" (EBin "&" (EIdx (EV "f") (EI 0)) (EI 1)) (EI 1))]].
(** fqrepr.go:22-24 *)
Definition src_FQRepr_IsEven : func := mkFunc [("f", "FQRepr")] [("_", "bool")]
  [SRet [(EBin "==" (EBin "&" (EIdx (EV "f") (EI 0)) (EI 1)) (EI 0))]].
(** fqrepr.go:27-34 *)
Definition src_FQRepr_IsZero : func := mkFunc [("f", "FQRepr")] [("_", "bool")]
  [SRange "_" "f" (EV "f")
      [SIf [] (EBin "!=" (EV "f") (EI 0))
        [SRet [(EV "false")]]
        []];
     SRet [(EV "true")]].
(** fqrepr.go:37-39 *)
Definition src_NewFQRepr : func := mkFunc [("n", "uint64")] [("_", "FQRepr")]
  [SRet [(EComp "FQRepr" [("", (EV "n")); ("", (EI 0)); ("", (EI 0)); ("", (EI 0)); ("", (EI 0)); ("", (EI 0))])]].
(** fqrepr.go:42-70 *)
Definition src_FQRepr_Rsh : func := mkFunc [("f", "*FQRepr"); ("n", "uint")] []
  [SIf [] (EBin ">=" (EV "n") (EBin "*" (EI 64) (EI 6)))
      [SAssign [(EIdx (EV "f") (EI 0))] [(EI 0)];
       SAssign [(EIdx (EV "f") (EI 1))] [(EI 0)];
       SAssign [(EIdx (EV "f") (EI 2))] [(EI 0)];
       SAssign [(EIdx (EV "f") (EI 3))] [(EI 0)];
       SAssign [(EIdx (EV "f") (EI 4))] [(EI 0)];
       SAssign [(EIdx (EV "f") (EI 5))] [(EI 0)];
       SRet []]
      [];
     SFor [] (Some (EBin ">=" (EV "n") (EI 64))) []
      [SDef ["t"] [(ECall "uint64" [(EI 0)])];
       SFor [SDef ["i"] [(EI 5)]] (Some (EBin ">=" (EV "i") (EI 0))) [SOp "-" (EV "i") (EI 1)]
        [SAssign [(EV "t"); (EIdx (EV "f") (EV "i"))] [(EIdx (EV "f") (EV "i")); (EV "t")]];
       SOp "-" (EV "n") (EI 64)];
     SIf [] (EBin ">" (EV "n") (EI 0))
      [SDef ["t"] [(ECall "uint64" [(EI 0)])];
       SFor [SDef ["i"] [(EI 5)]] (Some (EBin ">=" (EV "i") (EI 0))) [SOp "-" (EV "i") (EI 1)]
        [SDef ["t2"] [(EBin "<<" (EIdx (EV "f") (EV "i")) (EBin "-" (EI 64) (EV "n")))];
         SOp ">>" (EIdx (EV "f") (EV "i")) (EV "n");
         SOp "|" (EIdx (EV "f") (EV "i")) (EV "t");
         SAssign [(EV "t")] [(EV "t2")]]]
      []].
(** fqrepr.go:73-81 *)
Definition src_FQRepr_Div2 : func := mkFunc [("f", "*FQRepr")] []
  [SDef ["t"] [(ECall "uint64" [(EI 0)])];
     SFor [SDef ["i"] [(EI 5)]] (Some (EBin ">=" (EV "i") (EI 0))) [SOp "-" (EV "i") (EI 1)]
      [SDef ["t2"] [(EBin "<<" (EIdx (EV "f") (EV "i")) (EI 63))];
       SOp ">>" (EIdx (EV "f") (EV "i")) (EI 1);
       SOp "|" (EIdx (EV "f") (EV "i")) (EV "t");
       SAssign [(EV "t")] [(EV "t2")]]].
(** fqrepr.go:84-92 *)
Definition src_FQRepr_Mul2 : func := mkFunc [("f", "*FQRepr")] []
  [SDef ["last"] [(ECall "uint64" [(EI 0)])];
     SFor [SDef ["i"] [(EI 0)]] (Some (EBin "<" (EV "i") (EI 6))) [SOp "+" (EV "i") (EI 1)]
      [SDef ["tmp"] [(EBin ">>" (EIdx (EV "f") (EV "i")) (EI 63))];
       SOp "<<" (EIdx (EV "f") (EV "i")) (EI 1);
       SOp "|" (EIdx (EV "f") (EV "i")) (EV "last");
       SAssign [(EV "last")] [(EV "tmp")]]].
(** fqrepr.go:95-123 *)
Definition src_FQRepr_Lsh : func := mkFunc [("f", "*FQRepr"); ("n", "uint")] []
  [SIf [] (EBin ">=" (EV "n") (EBin "*" (EI 64) (EI 6)))
      [SAssign [(EIdx (EV "f") (EI 0))] [(EI 0)];
       SAssign [(EIdx (EV "f") (EI 1))] [(EI 0)];
       SAssign [(EIdx (EV "f") (EI 2))] [(EI 0)];
       SAssign [(EIdx (EV "f") (EI 3))] [(EI 0)];
       SAssign [(EIdx (EV "f") (EI 4))] [(EI 0)];
       SAssign [(EIdx (EV "f") (EI 5))] [(EI 0)];
       SRet []]
      [];
     SFor [] (Some (EBin ">=" (EV "n") (EI 64))) []
      [SDef ["t"] [(ECall "uint64" [(EI 0)])];
       SFor [SDef ["i"] [(EI 0)]] (Some (EBin "<" (EV "i") (EI 6))) [SOp "+" (EV "i") (EI 1)]
        [SAssign [(EV "t"); (EIdx (EV "f") (EV "i"))] [(EIdx (EV "f") (EV "i")); (EV "t")]];
       SOp "-" (EV "n") (EI 64)];
     SIf [] (EBin ">" (EV "n") (EI 0))
      [SDef ["t"] [(ECall "uint64" [(EI 0)])];
       SFor [SDef ["i"] [(EI 0)]] (Some (EBin "<" (EV "i") (EI 6))) [SOp "+" (EV "i") (EI 1)]
        [SDef ["t2"] [(EBin ">>" (EIdx (EV "f") (EV "i")) (EBin "-" (EI 64) (EV "n")))];
         SOp "<<" (EIdx (EV "f") (EV "i")) (EV "n");
         SOp "|" (EIdx (EV "f") (EV "i")) (EV "t");
         SAssign [(EV "t")] [(EV "t2")]]]
      []].
(** fqrepr.go:127-129 *)
Definition src_FQRepr_AddNoCarry : func := mkFunc [("f", "*FQRepr"); ("g", "FQRepr")] []
  [SAssign [(EUn "*" (EV "f"))] [(ECall "AddNoCarry" [(EUn "*" (EV "f")); (EV "g")])]].
(** fqrepr.go:133-135 *)
Definition src_FQRepr_SubNoBorrow : func := mkFunc [("f", "*FQRepr"); ("g", "FQRepr")] []
  [SAssign [(EUn "*" (EV "f"))] [(ECall "SubNoBorrow" [(EUn "*" (EV "f")); (EV "g")])]].
(** fqrepr.go:138-140 *)
Definition src_FQRepr_Equals : func := mkFunc [("f", "*FQRepr"); ("g", "FQRepr")] [("_", "bool")]
  [SRet [(EBin "&&" (EBin "&&" (EBin "&&" (EBin "&&" (EBin "&&" (EBin "==" (EIdx (EV "f") (EI 0)) (EIdx (EV "g") (EI 0))) (EBin "==" (EIdx (EV "f") (EI 1)) (EIdx (EV "g") (EI 1)))) (EBin "==" (EIdx (EV "f") (EI 2)) (EIdx (EV "g") (EI 2)))) (EBin "==" (EIdx (EV "f") (EI 3)) (EIdx (EV "g") (EI 3)))) (EBin "==" (EIdx (EV "f") (EI 4)) (EIdx (EV "g") (EI 4)))) (EBin "==" (EIdx (EV "f") (EI 5)) (EIdx (EV "g") (EI 5))))]].
(** fqrepr.go:143-155 *)
Definition src_FQRepr_Cmp : func := mkFunc [("f", "*FQRepr"); ("g", "FQRepr")] [("_", "int")]
  [SFor [SDef ["i"] [(EI 5)]] (Some (EBin ">=" (EV "i") (EI 0))) [SOp "-" (EV "i") (EI 1)]
      [SIf [] (EBin "==" (EIdx (EV "f") (EV "i")) (EIdx (EV "g") (EV "i")))
        [SContinue]
        [];
       SIf [] (EBin ">" (EIdx (EV "f") (EV "i")) (EIdx (EV "g") (EV "i")))
        [SRet [(EI 1)]]
        [SIf [] (EBin "<" (EIdx (EV "f") (EV "i")) (EIdx (EV "g") (EV "i")))
          [SRet [(EUn "-" (EI 1))]]
          []]];
     SRet [(EI 0)]].
(** fqrepr.go:158-160 *)
Definition src_FQRepr_Copy : func := mkFunc [("f", "*FQRepr")] [("_", "FQRepr")]
  [SRet [(EUn "*" (EV "f"))]].
(** fqrepr.go:163-165 *)
Definition src_FQRepr_String : func := mkFunc [("f", "FQRepr")] [("_", "string")]
  [SRet [(ECall "fmt.Sprintf" [(ES "%016x%016x%016x%016x%016x%016x"); (EIdx (EV "f") (EI 5)); (EIdx (EV "f") (EI 4)); (EIdx (EV "f") (EI 3)); (EIdx (EV "f") (EI 2)); (EIdx (EV "f") (EI 1)); (EIdx (EV "f") (EI 0))])]].
(** fqrepr.go:168-179 *)
Definition src_FQRepr_BitLen : func := mkFunc [("f", "FQRepr")] [("_", "uint")]
  [SDef ["ret"] [(ECall "uint" [(EBin "*" (EI 6) (EI 64))])];
     SFor [SDef ["i"] [(EI 5)]] (Some (EBin ">=" (EV "i") (EI 0))) [SOp "-" (EV "i") (EI 1)]
      [SDef ["leading"] [(ECall "uint" [(ECall "bits.LeadingZeros64" [(EIdx (EV "f") (EV "i"))])])];
       SOp "-" (EV "ret") (EV "leading");
       SIf [] (EBin "!=" (EV "leading") (EI 64))
        [SBreak]
        []];
     SRet [(EV "ret")]].
(** fqrepr.go:182-190 *)
Definition src_FQReprFromBytes : func := mkFunc [("b", "[48]byte")] [("_", "FQRepr")]
  [SDef ["m0"] [(EMeth (EV "binary.BigEndian") "Uint64" [(ESlice (EV "b") (Some (EI 0)) (Some (EI 8)))])];
     SDef ["m1"] [(EMeth (EV "binary.BigEndian") "Uint64" [(ESlice (EV "b") (Some (EI 8)) (Some (EI 16)))])];
     SDef ["m2"] [(EMeth (EV "binary.BigEndian") "Uint64" [(ESlice (EV "b") (Some (EI 16)) (Some (EI 24)))])];
     SDef ["m3"] [(EMeth (EV "binary.BigEndian") "Uint64" [(ESlice (EV "b") (Some (EI 24)) (Some (EI 32)))])];
     SDef ["m4"] [(EMeth (EV "binary.BigEndian") "Uint64" [(ESlice (EV "b") (Some (EI 32)) (Some (EI 40)))])];
     SDef ["m5"] [(EMeth (EV "binary.BigEndian") "Uint64" [(ESlice (EV "b") (Some (EI 40)) (Some (EI 48)))])];
     SRet [(EComp "FQRepr" [("", (EV "m5")); ("", (EV "m4")); ("", (EV "m3")); ("", (EV "m2")); ("", (EV "m1")); ("", (EV "m0"))])]].
(** fqrepr.go:193-202 *)
Definition src_FQRepr_Bytes : func := mkFunc [("f", "FQRepr")] [("_", "[48]byte")]
  [SVar "out" "[48]byte";
     SExpr (EMeth (EV "binary.BigEndian") "PutUint64" [(ESlice (EV "out") (Some (EI 0)) (Some (EI 8))); (EIdx (EV "f") (EI 5))]);
     SExpr (EMeth (EV "binary.BigEndian") "PutUint64" [(ESlice (EV "out") (Some (EI 8)) (Some (EI 16))); (EIdx (EV "f") (EI 4))]);
     SExpr (EMeth (EV "binary.BigEndian") "PutUint64" [(ESlice (EV "out") (Some (EI 16)) (Some (EI 24))); (EIdx (EV "f") (EI 3))]);
     SExpr (EMeth (EV "binary.BigEndian") "PutUint64" [(ESlice (EV "out") (Some (EI 24)) (Some (EI 32))); (EIdx (EV "f") (EI 2))]);
     SExpr (EMeth (EV "binary.BigEndian") "PutUint64" [(ESlice (EV "out") (Some (EI 32)) (Some (EI 40))); (EIdx (EV "f") (EI 1))]);
     SExpr (EMeth (EV "binary.BigEndian") "PutUint64" [(ESlice (EV "out") (Some (EI 40)) (Some (EI 48))); (EIdx (EV "f") (EI 0))]);
     SRet [(EV "out")]].
(** fqrepr.go:205-207 *)
Definition src_FQRepr_Bit : func := mkFunc [("f", "FQRepr"); ("n", "uint")] [("_", "bool")]
  [SRet [(EBin "!=" (EBin "&" (EIdx (EV "f") (EBin "/" (EV "n") (EI 64))) (EBin "<<" (EI 1) (EBin "%" (EV "n") (EI 64)))) (EI 0))]].
(** fqrepr.go:210-216 *)
Definition src_FQReprFromString : func := mkFunc [("s", "string"); ("b", "uint")] [("_", "FQRepr"); ("_", "error")]
  [SDef ["out"; "valid"] [(EMeth (ECall "new" [(ET "big.Int")]) "SetString" [(EV "s"); (ECall "int" [(EV "b")])])];
     SIf [] (EUn "!" (EV "valid"))
      [SRet [(EComp "FQRepr" []); (ECall "errors.New" [(ES "FQRepr not valid")])]]
      [];
     SRet [(ECall "FQReprFromBigInt" [(EV "out")])]].
(** fqrepr.go:218-221 *)
Definition src_fqReprFromHexUnchecked : func := mkFunc [("s", "string")] [("_", "FQRepr")]
  [SDef ["out"; "_"] [(EMeth (ECall "new" [(ET "big.Int")]) "SetString" [(EV "s"); (EI 16)])];
     SRet [(ECall "fqReprFromBigIntUnchecked" [(EV "out")])]].
(** fqrepr.go:223-226 *)
Definition src_fqReprFromStringUnchecked : func := mkFunc [("s", "string"); ("b", "uint")] [("_", "FQRepr")]
  [SDef ["out"; "_"] [(EMeth (ECall "new" [(ET "big.Int")]) "SetString" [(EV "s"); (ECall "int" [(EV "b")])])];
     SRet [(ECall "fqReprFromBigIntUnchecked" [(EV "out")])]].
(** fqrepr.go:229-238 *)
Definition src_FQRepr_ToBig : func := mkFunc [("f", "FQRepr")] [("_", "*big.Int")]
  [SDef ["out"] [(ECall "big.NewInt" [(EI 0)])];
     SFor [SDef ["i"] [(EI 5)]] (Some (EBin ">=" (EV "i") (EI 0))) [SOp "-" (EV "i") (EI 1)]
      [SExpr (EMeth (EV "out") "Add" [(EV "out"); (EMeth (ECall "new" [(ET "big.Int")]) "SetUint64" [(EIdx (EV "f") (EV "i"))])]);
       SIf [] (EBin "!=" (EV "i") (EI 0))
        [SExpr (EMeth (EV "out") "Lsh" [(EV "out"); (EI 64)])]
        []];
     SRet [(EV "out")]].
(** fqrepr.go:244-261 *)
Definition src_FQReprFromBigInt : func := mkFunc [("n", "*big.Int")] [("_", "FQRepr"); ("_", "error")]
  [SIf [] (EBin "||" (EBin ">" (EMeth (EV "n") "BitLen" []) (EI 384)) (EBin "==" (EMeth (EV "n") "Sign" []) (EUn "-" (EI 1))))
      [SRet [(EComp "FQRepr" []); (ECall "errors.New" [(ES "invalid input string")])]]
      [];
     SDef ["out"] [(EMeth (ECall "new" [(ET "big.Int")]) "Set" [(EV "n")])];
     SDef ["newf"] [(ECall "NewFQRepr" [(EI 0)])];
     SDef ["i"] [(EI 0)];
     SFor [] (Some (EBin "!=" (EMeth (EV "out") "Cmp" [(EV "bigIntZero")]) (EI 0))) []
      [SDef ["o"] [(EMeth (ECall "new" [(ET "big.Int")]) "And" [(EV "out"); (EV "oneLsh64MinusOne")])];
       SAssign [(EIdx (EV "newf") (EV "i"))] [(EMeth (EV "o") "Uint64" [])];
       SOp "+" (EV "i") (EI 1);
       SExpr (EMeth (EV "out") "Rsh" [(EV "out"); (EI 64)])];
     SRet [(EV "newf"); (EV "nil")]].
(** fqrepr.go:264-277 *)
Definition src_fqReprFromBigIntUnchecked : func := mkFunc [("n", "*big.Int")] [("_", "FQRepr")]
  [SDef ["out"] [(EMeth (ECall "new" [(ET "big.Int")]) "Set" [(EV "n")])];
     SDef ["newf"] [(ECall "NewFQRepr" [(EI 0)])];
     SDef ["i"] [(EI 0)];
     SFor [] (Some (EBin "!=" (EMeth (EV "out") "Cmp" [(EV "bigIntZero")]) (EI 0))) []
      [SDef ["o"] [(EMeth (ECall "new" [(ET "big.Int")]) "And" [(EV "out"); (EV "oneLsh64MinusOne")])];
       SAssign [(EIdx (EV "newf") (EV "i"))] [(EMeth (EV "o") "Uint64" [])];
       SOp "+" (EV "i") (EI 1);
       SExpr (EMeth (EV "out") "Rsh" [(EV "out"); (EI 64)])];
     SRet [(EV "newf")]].
(** stub_fallback.go:11-57 *)
Definition src_MultiplyFQRepr : func := mkFunc [("a", "[6]uint64"); ("b", "[6]uint64")] [("hi", "[6]uint64"); ("lo", "[6]uint64")]
  [SDef ["carry"] [(ECall "uint64" [(EI 0)])];
     SAssign [(EIdx (EV "lo") (EI 0)); (EV "carry")] [(ECall "MACWithCarry" [(EI 0); (EIdx (EV "a") (EI 0)); (EIdx (EV "b") (EI 0)); (EI 0)])];
     SAssign [(EIdx (EV "lo") (EI 1)); (EV "carry")] [(ECall "MACWithCarry" [(EI 0); (EIdx (EV "a") (EI 0)); (EIdx (EV "b") (EI 1)); (EV "carry")])];
     SAssign [(EIdx (EV "lo") (EI 2)); (EV "carry")] [(ECall "MACWithCarry" [(EI 0); (EIdx (EV "a") (EI 0)); (EIdx (EV "b") (EI 2)); (EV "carry")])];
     SAssign [(EIdx (EV "lo") (EI 3)); (EV "carry")] [(ECall "MACWithCarry" [(EI 0); (EIdx (EV "a") (EI 0)); (EIdx (EV "b") (EI 3)); (EV "carry")])];
     SAssign [(EIdx (EV "lo") (EI 4)); (EV "carry")] [(ECall "MACWithCarry" [(EI 0); (EIdx (EV "a") (EI 0)); (EIdx (EV "b") (EI 4)); (EV "carry")])];
     SAssign [(EIdx (EV "lo") (EI 5)); (EV "carry")] [(ECall "MACWithCarry" [(EI 0); (EIdx (EV "a") (EI 0)); (EIdx (EV "b") (EI 5)); (EV "carry")])];
     SAssign [(EIdx (EV "hi") (EI 0))] [(EV "carry")];
     SAssign [(EIdx (EV "lo") (EI 1)); (EV "carry")] [(ECall "MACWithCarry" [(EIdx (EV "lo") (EI 1)); (EIdx (EV "a") (EI 1)); (EIdx (EV "b") (EI 0)); (EI 0)])];
     SAssign [(EIdx (EV "lo") (EI 2)); (EV "carry")] [(ECall "MACWithCarry" [(EIdx (EV "lo") (EI 2)); (EIdx (EV "a") (EI 1)); (EIdx (EV "b") (EI 1)); (EV "carry")])];
     SAssign [(EIdx (EV "lo") (EI 3)); (EV "carry")] [(ECall "MACWithCarry" [(EIdx (EV "lo") (EI 3)); (EIdx (EV "a") (EI 1)); (EIdx (EV "b") (EI 2)); (EV "carry")])];
     SAssign [(EIdx (EV "lo") (EI 4)); (EV "carry")] [(ECall "MACWithCarry" [(EIdx (EV "lo") (EI 4)); (EIdx (EV "a") (EI 1)); (EIdx (EV "b") (EI 3)); (EV "carry")])];
     SAssign [(EIdx (EV "lo") (EI 5)); (EV "carry")] [(ECall "MACWithCarry" [(EIdx (EV "lo") (EI 5)); (EIdx (EV "a") (EI 1)); (EIdx (EV "b") (EI 4)); (EV "carry")])];
     SAssign [(EIdx (EV "hi") (EI 0)); (EV "carry")] [(ECall "MACWithCarry" [(EIdx (EV "hi") (EI 0)); (EIdx (EV "a") (EI 1)); (EIdx (EV "b") (EI 5)); (EV "carry")])];
     SAssign [(EIdx (EV "hi") (EI 1))] [(EV "carry")];
     SAssign [(EIdx (EV "lo") (EI 2)); (EV "carry")] [(ECall "MACWithCarry" [(EIdx (EV "lo") (EI 2)); (EIdx (EV "a") (EI 2)); (EIdx (EV "b") (EI 0)); (EI 0)])];
     SAssign [(EIdx (EV "lo") (EI 3)); (EV "carry")] [(ECall "MACWithCarry" [(EIdx (EV "lo") (EI 3)); (EIdx (EV "a") (EI 2)); (EIdx (EV "b") (EI 1)); (EV "carry")])];
     SAssign [(EIdx (EV "lo") (EI 4)); (EV "carry")] [(ECall "MACWithCarry" [(EIdx (EV "lo") (EI 4)); (EIdx (EV "a") (EI 2)); (EIdx (EV "b") (EI 2)); (EV "carry")])];
     SAssign [(EIdx (EV "lo") (EI 5)); (EV "carry")] [(ECall "MACWithCarry" [(EIdx (EV "lo") (EI 5)); (EIdx (EV "a") (EI 2)); (EIdx (EV "b") (EI 3)); (EV "carry")])];
     SAssign [(EIdx (EV "hi") (EI 0)); (EV "carry")] [(ECall "MACWithCarry" [(EIdx (EV "hi") (EI 0)); (EIdx (EV "a") (EI 2)); (EIdx (EV "b") (EI 4)); (EV "carry")])];
     SAssign [(EIdx (EV "hi") (EI 1)); (EV "carry")] [(ECall "MACWithCarry" [(EIdx (EV "hi") (EI 1)); (EIdx (EV "a") (EI 2)); (EIdx (EV "b") (EI 5)); (EV "carry")])];
     SAssign [(EIdx (EV "hi") (EI 2))] [(EV "carry")];
     SAssign [(EIdx (EV "lo") (EI 3)); (EV "carry")] [(ECall "MACWithCarry" [(EIdx (EV "lo") (EI 3)); (EIdx (EV "a") (EI 3)); (EIdx (EV "b") (EI 0)); (EI 0)])];
     SAssign [(EIdx (EV "lo") (EI 4)); (EV "carry")] [(ECall "MACWithCarry" [(EIdx (EV "lo") (EI 4)); (EIdx (EV "a") (EI 3)); (EIdx (EV "b") (EI 1)); (EV "carry")])];
     SAssign [(EIdx (EV "lo") (EI 5)); (EV "carry")] [(ECall "MACWithCarry" [(EIdx (EV "lo") (EI 5)); (EIdx (EV "a") (EI 3)); (EIdx (EV "b") (EI 2)); (EV "carry")])];
     SAssign [(EIdx (EV "hi") (EI 0)); (EV "carry")] [(ECall "MACWithCarry" [(EIdx (EV "hi") (EI 0)); (EIdx (EV "a") (EI 3)); (EIdx (EV "b") (EI 3)); (EV "carry")])];
     SAssign [(EIdx (EV "hi") (EI 1)); (EV "carry")] [(ECall "MACWithCarry" [(EIdx (EV "hi") (EI 1)); (EIdx (EV "a") (EI 3)); (EIdx (EV "b") (EI 4)); (EV "carry")])];
     SAssign [(EIdx (EV "hi") (EI 2)); (EV "carry")] [(ECall "MACWithCarry" [(EIdx (EV "hi") (EI 2)); (EIdx (EV "a") (EI 3)); (EIdx (EV "b") (EI 5)); (EV "carry")])];
     SAssign [(EIdx (EV "hi") (EI 3))] [(EV "carry")];
     SAssign [(EIdx (EV "lo") (EI 4)); (EV "carry")] [(ECall "MACWithCarry" [(EIdx (EV "lo") (EI 4)); (EIdx (EV "a") (EI 4)); (EIdx (EV "b") (EI 0)); (EI 0)])];
     SAssign [(EIdx (EV "lo") (EI 5)); (EV "carry")] [(ECall "MACWithCarry" [(EIdx (EV "lo") (EI 5)); (EIdx (EV "a") (EI 4)); (EIdx (EV "b") (EI 1)); (EV "carry")])];
     SAssign [(EIdx (EV "hi") (EI 0)); (EV "carry")] [(ECall "MACWithCarry" [(EIdx (EV "hi") (EI 0)); (EIdx (EV "a") (EI 4)); (EIdx (EV "b") (EI 2)); (EV "carry")])];
     SAssign [(EIdx (EV "hi") (EI 1)); (EV "carry")] [(ECall "MACWithCarry" [(EIdx (EV "hi") (EI 1)); (EIdx (EV "a") (EI 4)); (EIdx (EV "b") (EI 3)); (EV "carry")])];
     SAssign [(EIdx (EV "hi") (EI 2)); (EV "carry")] [(ECall "MACWithCarry" [(EIdx (EV "hi") (EI 2)); (EIdx (EV "a") (EI 4)); (EIdx (EV "b") (EI 4)); (EV "carry")])];
     SAssign [(EIdx (EV "hi") (EI 3)); (EV "carry")] [(ECall "MACWithCarry" [(EIdx (EV "hi") (EI 3)); (EIdx (EV "a") (EI 4)); (EIdx (EV "b") (EI 5)); (EV "carry")])];
     SAssign [(EIdx (EV "hi") (EI 4))] [(EV "carry")];
     SAssign [(EIdx (EV "lo") (EI 5)); (EV "carry")] [(ECall "MACWithCarry" [(EIdx (EV "lo") (EI 5)); (EIdx (EV "a") (EI 5)); (EIdx (EV "b") (EI 0)); (EI 0)])];
     SAssign [(EIdx (EV "hi") (EI 0)); (EV "carry")] [(ECall "MACWithCarry" [(EIdx (EV "hi") (EI 0)); (EIdx (EV "a") (EI 5)); (EIdx (EV "b") (EI 1)); (EV "carry")])];
     SAssign [(EIdx (EV "hi") (EI 1)); (EV "carry")] [(ECall "MACWithCarry" [(EIdx (EV "hi") (EI 1)); (EIdx (EV "a") (EI 5)); (EIdx (EV "b") (EI 2)); (EV "carry")])];
     SAssign [(EIdx (EV "hi") (EI 2)); (EV "carry")] [(ECall "MACWithCarry" [(EIdx (EV "hi") (EI 2)); (EIdx (EV "a") (EI 5)); (EIdx (EV "b") (EI 3)); (EV "carry")])];
     SAssign [(EIdx (EV "hi") (EI 3)); (EV "carry")] [(ECall "MACWithCarry" [(EIdx (EV "hi") (EI 3)); (EIdx (EV "a") (EI 5)); (EIdx (EV "b") (EI 4)); (EV "carry")])];
     SAssign [(EIdx (EV "hi") (EI 4)); (EV "carry")] [(ECall "MACWithCarry" [(EIdx (EV "hi") (EI 4)); (EIdx (EV "a") (EI 5)); (EIdx (EV "b") (EI 5)); (EV "carry")])];
     SAssign [(EIdx (EV "hi") (EI 5))] [(EV "carry")];
     SRet [(EV "hi"); (EV "lo")]].
(** stub_fallback.go:61-116 *)
Definition src_MontReduce : func := mkFunc [("hi", "[6]uint64"); ("lo", "[6]uint64")] [("_", "[6]uint64")]
  [SDef ["k"] [(EBin "*" (EIdx (EV "lo") (EI 0)) (EV "montInvFQ"))];
     SDef ["_"; "carry"] [(ECall "MACWithCarry" [(EIdx (EV "lo") (EI 0)); (EV "k"); (EIdx (EV "QFieldModulus") (EI 0)); (EI 0)])];
     SAssign [(EIdx (EV "lo") (EI 1)); (EV "carry")] [(ECall "MACWithCarry" [(EIdx (EV "lo") (EI 1)); (EV "k"); (EIdx (EV "QFieldModulus") (EI 1)); (EV "carry")])];
     SAssign [(EIdx (EV "lo") (EI 2)); (EV "carry")] [(ECall "MACWithCarry" [(EIdx (EV "lo") (EI 2)); (EV "k"); (EIdx (EV "QFieldModulus") (EI 2)); (EV "carry")])];
     SAssign [(EIdx (EV "lo") (EI 3)); (EV "carry")] [(ECall "MACWithCarry" [(EIdx (EV "lo") (EI 3)); (EV "k"); (EIdx (EV "QFieldModulus") (EI 3)); (EV "carry")])];
     SAssign [(EIdx (EV "lo") (EI 4)); (EV "carry")] [(ECall "MACWithCarry" [(EIdx (EV "lo") (EI 4)); (EV "k"); (EIdx (EV "QFieldModulus") (EI 4)); (EV "carry")])];
     SAssign [(EIdx (EV "lo") (EI 5)); (EV "carry")] [(ECall "MACWithCarry" [(EIdx (EV "lo") (EI 5)); (EV "k"); (EIdx (EV "QFieldModulus") (EI 5)); (EV "carry")])];
     SAssign [(EIdx (EV "hi") (EI 0)); (EV "carry")] [(ECall "AddWithCarry" [(EIdx (EV "hi") (EI 0)); (EI 0); (EV "carry")])];
     SDef ["carry2"] [(EV "carry")];
     SAssign [(EV "k")] [(EBin "*" (EIdx (EV "lo") (EI 1)) (EV "montInvFQ"))];
     SAssign [(EV "_"); (EV "carry")] [(ECall "MACWithCarry" [(EIdx (EV "lo") (EI 1)); (EV "k"); (EIdx (EV "QFieldModulus") (EI 0)); (EI 0)])];
     SAssign [(EIdx (EV "lo") (EI 2)); (EV "carry")] [(ECall "MACWithCarry" [(EIdx (EV "lo") (EI 2)); (EV "k"); (EIdx (EV "QFieldModulus") (EI 1)); (EV "carry")])];
     SAssign [(EIdx (EV "lo") (EI 3)); (EV "carry")] [(ECall "MACWithCarry" [(EIdx (EV "lo") (EI 3)); (EV "k"); (EIdx (EV "QFieldModulus") (EI 2)); (EV "carry")])];
     SAssign [(EIdx (EV "lo") (EI 4)); (EV "carry")] [(ECall "MACWithCarry" [(EIdx (EV "lo") (EI 4)); (EV "k"); (EIdx (EV "QFieldModulus") (EI 3)); (EV "carry")])];
     SAssign [(EIdx (EV "lo") (EI 5)); (EV "carry")] [(ECall "MACWithCarry" [(EIdx (EV "lo") (EI 5)); (EV "k"); (EIdx (EV "QFieldModulus") (EI 4)); (EV "carry")])];
     SAssign [(EIdx (EV "hi") (EI 0)); (EV "carry")] [(ECall "MACWithCarry" [(EIdx (EV "hi") (EI 0)); (EV "k"); (EIdx (EV "QFieldModulus") (EI 5)); (EV "carry")])];
     SAssign [(EIdx (EV "hi") (EI 1)); (EV "carry")] [(ECall "AddWithCarry" [(EIdx (EV "hi") (EI 1)); (EV "carry2"); (EV "carry")])];
     SAssign [(EV "carry2")] [(EV "carry")];
     SAssign [(EV "k")] [(EBin "*" (EIdx (EV "lo") (EI 2)) (EV "montInvFQ"))];
     SAssign [(EV "_"); (EV "carry")] [(ECall "MACWithCarry" [(EIdx (EV "lo") (EI 2)); (EV "k"); (EIdx (EV "QFieldModulus") (EI 0)); (EI 0)])];
     SAssign [(EIdx (EV "lo") (EI 3)); (EV "carry")] [(ECall "MACWithCarry" [(EIdx (EV "lo") (EI 3)); (EV "k"); (EIdx (EV "QFieldModulus") (EI 1)); (EV "carry")])];
     SAssign [(EIdx (EV "lo") (EI 4)); (EV "carry")] [(ECall "MACWithCarry" [(EIdx (EV "lo") (EI 4)); (EV "k"); (EIdx (EV "QFieldModulus") (EI 2)); (EV "carry")])];
     SAssign [(EIdx (EV "lo") (EI 5)); (EV "carry")] [(ECall "MACWithCarry" [(EIdx (EV "lo") (EI 5)); (EV "k"); (EIdx (EV "QFieldModulus") (EI 3)); (EV "carry")])];
     SAssign [(EIdx (EV "hi") (EI 0)); (EV "carry")] [(ECall "MACWithCarry" [(EIdx (EV "hi") (EI 0)); (EV "k"); (EIdx (EV "QFieldModulus") (EI 4)); (EV "carry")])];
     SAssign [(EIdx (EV "hi") (EI 1)); (EV "carry")] [(ECall "MACWithCarry" [(EIdx (EV "hi") (EI 1)); (EV "k"); (EIdx (EV "QFieldModulus") (EI 5)); (EV "carry")])];
     SAssign [(EIdx (EV "hi") (EI 2)); (EV "carry")] [(ECall "AddWithCarry" [(EIdx (EV "hi") (EI 2)); (EV "carry2"); (EV "carry")])];
     SAssign [(EV "carry2")] [(EV "carry")];
     SAssign [(EV "k")] [(EBin "*" (EIdx (EV "lo") (EI 3)) (EV "montInvFQ"))];
     SAssign [(EV "_"); (EV "carry")] [(ECall "MACWithCarry" [(EIdx (EV "lo") (EI 3)); (EV "k"); (EIdx (EV "QFieldModulus") (EI 0)); (EI 0)])];
     SAssign [(EIdx (EV "lo") (EI 4)); (EV "carry")] [(ECall "MACWithCarry" [(EIdx (EV "lo") (EI 4)); (EV "k"); (EIdx (EV "QFieldModulus") (EI 1)); (EV "carry")])];
     SAssign [(EIdx (EV "lo") (EI 5)); (EV "carry")] [(ECall "MACWithCarry" [(EIdx (EV "lo") (EI 5)); (EV "k"); (EIdx (EV "QFieldModulus") (EI 2)); (EV "carry")])];
     SAssign [(EIdx (EV "hi") (EI 0)); (EV "carry")] [(ECall "MACWithCarry" [(EIdx (EV "hi") (EI 0)); (EV "k"); (EIdx (EV "QFieldModulus") (EI 3)); (EV "carry")])];
     SAssign [(EIdx (EV "hi") (EI 1)); (EV "carry")] [(ECall "MACWithCarry" [(EIdx (EV "hi") (EI 1)); (EV "k"); (EIdx (EV "QFieldModulus") (EI 4)); (EV "carry")])];
     SAssign [(EIdx (EV "hi") (EI 2)); (EV "carry")] [(ECall "MACWithCarry" [(EIdx (EV "hi") (EI 2)); (EV "k"); (EIdx (EV "QFieldModulus") (EI 5)); (EV "carry")])];
     SAssign [(EIdx (EV "hi") (EI 3)); (EV "carry")] [(ECall "AddWithCarry" [(EIdx (EV "hi") (EI 3)); (EV "carry2"); (EV "carry")])];
     SAssign [(EV "carry2")] [(EV "carry")];
     SAssign [(EV "k")] [(EBin "*" (EIdx (EV "lo") (EI 4)) (EV "montInvFQ"))];
     SAssign [(EV "_"); (EV "carry")] [(ECall "MACWithCarry" [(EIdx (EV "lo") (EI 4)); (EV "k"); (EIdx (EV "QFieldModulus") (EI 0)); (EI 0)])];
     SAssign [(EIdx (EV "lo") (EI 5)); (EV "carry")] [(ECall "MACWithCarry" [(EIdx (EV "lo") (EI 5)); (EV "k"); (EIdx (EV "QFieldModulus") (EI 1)); (EV "carry")])];
     SAssign [(EIdx (EV "hi") (EI 0)); (EV "carry")] [(ECall "MACWithCarry" [(EIdx (EV "hi") (EI 0)); (EV "k"); (EIdx (EV "QFieldModulus") (EI 2)); (EV "carry")])];
     SAssign [(EIdx (EV "hi") (EI 1)); (EV "carry")] [(ECall "MACWithCarry" [(EIdx (EV "hi") (EI 1)); (EV "k"); (EIdx (EV "QFieldModulus") (EI 3)); (EV "carry")])];
     SAssign [(EIdx (EV "hi") (EI 2)); (EV "carry")] [(ECall "MACWithCarry" [(EIdx (EV "hi") (EI 2)); (EV "k"); (EIdx (EV "QFieldModulus") (EI 4)); (EV "carry")])];
     SAssign [(EIdx (EV "hi") (EI 3)); (EV "carry")] [(ECall "MACWithCarry" [(EIdx (EV "hi") (EI 3)); (EV "k"); (EIdx (EV "QFieldModulus") (EI 5)); (EV "carry")])];
     SAssign [(EIdx (EV "hi") (EI 4)); (EV "carry")] [(ECall "AddWithCarry" [(EIdx (EV "hi") (EI 4)); (EV "carry2"); (EV "carry")])];
     SAssign [(EV "carry2")] [(EV "carry")];
     SAssign [(EV "k")] [(EBin "*" (EIdx (EV "lo") (EI 5)) (EV "montInvFQ"))];
     SAssign [(EV "_"); (EV "carry")] [(ECall "MACWithCarry" [(EIdx (EV "lo") (EI 5)); (EV "k"); (EIdx (EV "QFieldModulus") (EI 0)); (EI 0)])];
     SAssign [(EIdx (EV "hi") (EI 0)); (EV "carry")] [(ECall "MACWithCarry" [(EIdx (EV "hi") (EI 0)); (EV "k"); (EIdx (EV "QFieldModulus") (EI 1)); (EV "carry")])];
     SAssign [(EIdx (EV "hi") (EI 1)); (EV "carry")] [(ECall "MACWithCarry" [(EIdx (EV "hi") (EI 1)); (EV "k"); (EIdx (EV "QFieldModulus") (EI 2)); (EV "carry")])];
     SAssign [(EIdx (EV "hi") (EI 2)); (EV "carry")] [(ECall "MACWithCarry" [(EIdx (EV "hi") (EI 2)); (EV "k"); (EIdx (EV "QFieldModulus") (EI 3)); (EV "carry")])];
     SAssign [(EIdx (EV "hi") (EI 3)); (EV "carry")] [(ECall "MACWithCarry" [(EIdx (EV "hi") (EI 3)); (EV "k"); (EIdx (EV "QFieldModulus") (EI 4)); (EV "carry")])];
     SAssign [(EIdx (EV "hi") (EI 4)); (EV "carry")] [(ECall "MACWithCarry" [(EIdx (EV "hi") (EI 4)); (EV "k"); (EIdx (EV "QFieldModulus") (EI 5)); (EV "carry")])];
     SAssign [(EIdx (EV "hi") (EI 5)); (EV "carry")] [(ECall "AddWithCarry" [(EIdx (EV "hi") (EI 5)); (EV "carry2"); (EV "carry")])];
     SRet [(EV "hi")]].
(** stub_fallback.go:119-126 *)
Definition src_AddNoCarry : func := mkFunc [("a", "[6]uint64"); ("b", "[6]uint64")] [("out", "[6]uint64")]
  [SDef ["carry"] [(ECall "uint64" [(EI 0)])];
     SFor [SDef ["i"] [(EI 0)]] (Some (EBin "<" (EV "i") (EI 6))) [SOp "+" (EV "i") (EI 1)]
      [SAssign [(EIdx (EV "out") (EV "i")); (EV "carry")] [(ECall "AddWithCarry" [(EIdx (EV "a") (EV "i")); (EIdx (EV "b") (EV "i")); (EV "carry")])]];
     SRet [(EV "out")]].
(** stub_fallback.go:128-134 *)
Definition src_SubNoBorrow : func := mkFunc [("a", "[6]uint64"); ("b", "[6]uint64")] [("out", "[6]uint64")]
  [SDef ["borrow"] [(ECall "uint64" [(EI 0)])];
     SFor [SDef ["i"] [(EI 0)]] (Some (EBin "<" (EV "i") (EI 6))) [SOp "+" (EV "i") (EI 1)]
      [SAssign [(EIdx (EV "out") (EV "i")); (EV "borrow")] [(ECall "SubWithBorrow" [(EIdx (EV "a") (EV "i")); (EIdx (EV "b") (EV "i")); (EV "borrow")])]];
     SRet [(EV "out")]].
(** stub_fallback.go:136-140 *)
Definition src_AddWithCarry : func := mkFunc [("a", "uint64"); ("b", "uint64"); ("carry", "uint64")] [("_", "uint64"); ("_", "uint64")]
  [SDef ["out"; "outCarry"] [(ECall "bits.Add64" [(EV "a"); (EV "b"); (EI 0)])];
     SDef ["out"; "outCarry2"] [(ECall "bits.Add64" [(EV "out"); (EV "carry"); (EI 0)])];
     SRet [(EV "out"); (EBin "+" (EV "outCarry") (EV "outCarry2"))]].
(** stub_fallback.go:144-147 *)
Definition src_SubWithBorrow : func := mkFunc [("a", "uint64"); ("b", "uint64"); ("borrow", "uint64")] [("_", "uint64"); ("_", "uint64")]
  [SDef ["o"; "c"] [(ECall "bits.Sub64" [(EV "a"); (EV "b"); (EV "borrow")])];
     SRet [(EV "o"); (EV "c")]].
(** stub_fallback.go:149-155 *)
Definition src_MACWithCarry : func := mkFunc [("a", "uint64"); ("b", "uint64"); ("c", "uint64"); ("carry", "uint64")] [("out", "uint64"); ("newCarry", "uint64")]
  [SDef ["carryOut"; "bc"] [(ECall "bits.Mul64" [(EV "b"); (EV "c")])];
     SDef ["abc"; "carryOut2"] [(ECall "bits.Add64" [(EV "bc"); (EV "a"); (EI 0)])];
     SDef ["abcc"; "carryOut3"] [(ECall "bits.Add64" [(EV "abc"); (EV "carry"); (EI 0)])];
     SRet [(EV "abcc"); (EBin "+" (EBin "+" (EV "carryOut") (EV "carryOut2")) (EV "carryOut3"))]].
(** bititerator.go:10-12 *)
Definition src_NewBitIterator : func := mkFunc [("arr", "[]uint64")] [("_", "BitIterator")]
  [SRet [(EComp "BitIterator" [("", (EV "arr")); ("", (ECall "uint" [(EBin "*" (ECall "len" [(EV "arr")]) (EI 64))]))])]].
(** bititerator.go:16-24 *)
Definition src_BitIterator_Next : func := mkFunc [("bi", "*BitIterator")] [("_", "bool"); ("_", "bool")]
  [SIf [] (EBin "==" (ESel (EV "bi") "n") (EI 0))
      [SRet [(EV "false"); (EV "true")]]
      [];
     SOp "-" (ESel (EV "bi") "n") (EI 1);
     SDef ["part"] [(EBin "/" (ESel (EV "bi") "n") (EI 64))];
     SDef ["bit"] [(EBin "-" (ESel (EV "bi") "n") (EBin "*" (EV "part") (EI 64)))];
     SRet [(EBin ">" (EBin "&" (EIdx (ESel (EV "bi") "arr") (EV "part")) (EBin "<<" (EI 1) (EV "bit"))) (EI 0)); (EV "false")]].
(** fq.go:32-34 *)
Definition src_FQ_Copy : func := mkFunc [("f", "FQ")] [("_", "FQ")]
  [SRet [(EV "f")]].
(** fq.go:37-39 *)
Definition src_FQ_IsValid : func := mkFunc [("f", "*FQ")] [("_", "bool")]
  [SRet [(EBin "||" (EBin "==" (EBin "&" (EIdx (ESel (EV "f") "n") (EI 5)) (EI 17293822569102704640)) (EI 0)) (EBin "<" (EMeth (ESel (EV "f") "n") "Cmp" [(EV "QFieldModulus")]) (EI 0)))]].
(** fq.go:41-45 *)
Definition src_FQ_reduceAssign : func := mkFunc [("f", "*FQ")] []
  [SIf [] (EUn "!" (EMeth (EV "f") "IsValid" []))
      [SExpr (EMeth (ESel (EV "f") "n") "SubNoBorrow" [(EV "QFieldModulus")])]
      []].
(** fq.go:49-56 *)
Definition src_FQReprToFQ : func := mkFunc [("o", "FQRepr")] [("_", "FQ")]
  [SDef ["r"] [(EComp "FQ" [("n", (EV "o"))])];
     SIf [] (EMeth (EV "r") "IsValid" [])
      [SExpr (EMeth (EV "r") "MulAssign" [(EComp "FQ" [("", (EV "FQR2"))])]);
       SRet [(EV "r")]]
      [];
     SRet [(EComp "FQ" [])]].
(** fq.go:60-62 *)
Definition src_FQReprToFQRaw : func := mkFunc [("o", "FQRepr")] [("_", "FQ")]
  [SRet [(EComp "FQ" [("n", (EV "o"))])]].
(** fq.go:65-68 *)
Definition src_FQ_AddAssign : func := mkFunc [("f", "*FQ"); ("other", "FQ")] []
  [SExpr (EMeth (ESel (EV "f") "n") "AddNoCarry" [(ESel (EV "other") "n")]);
     SExpr (EMeth (EV "f") "reduceAssign" [])].
(** fq.go:70-73 *)
Definition src_FQ_montReduce : func := mkFunc [("f", "*FQ"); ("hi", "[6]uint64"); ("lo", "[6]uint64")] []
  [SAssign [(ESel (EV "f") "n")] [(ECall "MontReduce" [(EV "hi"); (EV "lo")])];
     SExpr (EMeth (EV "f") "reduceAssign" [])].
(** fq.go:76-79 *)
Definition src_FQ_MulAssign : func := mkFunc [("f", "*FQ"); ("other", "FQ")] []
  [SDef ["hi"; "lo"] [(ECall "MultiplyFQRepr" [(ESel (EV "f") "n"); (ESel (EV "other") "n")])];
     SExpr (EMeth (EV "f") "montReduce" [(EV "hi"); (EV "lo")])].
(** fq.go:82-87 *)
Definition src_FQ_SubAssign : func := mkFunc [("f", "*FQ"); ("other", "FQ")] []
  [SIf [] (EBin ">" (EMeth (ESel (EV "other") "n") "Cmp" [(ESel (EV "f") "n")]) (EI 0))
      [SExpr (EMeth (ESel (EV "f") "n") "AddNoCarry" [(EV "QFieldModulus")])]
      [];
     SExpr (EMeth (ESel (EV "f") "n") "SubNoBorrow" [(ESel (EV "other") "n")])].
(** fq.go:90-93 *)
Definition src_FQ_DivAssign : func := mkFunc [("f", "*FQ"); ("other", "FQ")] []
  [SDef ["otherInv"; "_"] [(EMeth (EV "other") "Inverse" [])];
     SExpr (EMeth (EV "f") "MulAssign" [(EV "otherInv")])].
(** fq.go:96-113 *)
Definition src_FQ_Exp : func := mkFunc [("f", "FQ"); ("n", "FQRepr")] [("_", "FQ")]
  [SDef ["iter"] [(ECall "NewBitIterator" [(ESlice (EV "n") None None)])];
     SDef ["res"] [(EMeth (EV "FQOne") "Copy" [])];
     SDef ["foundOne"] [(EV "false")];
     SDef ["next"; "done"] [(EMeth (EV "iter") "Next" [])];
     SFor [] (Some (EUn "!" (EV "done"))) []
      [SIf [] (EV "foundOne")
        [SExpr (EMeth (EV "res") "SquareAssign" [])]
        [SAssign [(EV "foundOne")] [(EV "next")]];
       SIf [] (EV "next")
        [SExpr (EMeth (EV "res") "MulAssign" [(EV "f")])]
        [];
       SAssign [(EV "next"); (EV "done")] [(EMeth (EV "iter") "Next" [])]];
     SRet [(EV "res")]].
(** fq.go:116-118 *)
Definition src_FQ_Equals : func := mkFunc [("f", "FQ"); ("other", "FQ")] [("_", "bool")]
  [SRet [(EMeth (ESel (EV "f") "n") "Equals" [(ESel (EV "other") "n")])]].
(** fq.go:121-127 *)
Definition src_FQ_NegAssign : func := mkFunc [("f", "*FQ")] []
  [SIf [] (EUn "!" (EMeth (EV "f") "IsZero" []))
      [SDef ["tmp"] [(EMeth (EV "QFieldModulus") "Copy" [])];
       SExpr (EMeth (EV "tmp") "SubNoBorrow" [(ESel (EV "f") "n")]);
       SAssign [(ESel (EV "f") "n")] [(EV "tmp")]]
      []].
(** fq.go:129-131 *)
Definition src_FQ_String : func := mkFunc [("f", "FQ")] [("_", "string")]
  [SRet [(ECall "fmt.Sprintf" [(ES "Fq(0x%s)"); (EMeth (EMeth (EV "f") "ToRepr" []) "String" [])])]].
(** fq.go:134-137 *)
Definition src_FQ_Cmp : func := mkFunc [("f", "FQ"); ("other", "FQ")] [("_", "int")]
  [SDef ["fr1"] [(EMeth (EV "f") "ToRepr" [])];
     SRet [(EMeth (EV "fr1") "Cmp" [(EMeth (EV "other") "ToRepr" [])])]].
(** fq.go:140-143 *)
Definition src_FQ_DoubleAssign : func := mkFunc [("f", "*FQ")] []
  [SExpr (EMeth (ESel (EV "f") "n") "Mul2" []);
     SExpr (EMeth (EV "f") "reduceAssign" [])].
(** fq.go:146-148 *)
Definition src_FQ_IsZero : func := mkFunc [("f", "FQ")] [("_", "bool")]
  [SRet [(EMeth (ESel (EV "f") "n") "Equals" [(EV "bigZero")])]].
(** fq.go:151-198 *)
Definition src_FQ_SquareAssign : func := mkFunc [("f", "*FQ")] []
  [SDef ["r1"; "carry"] [(ECall "MACWithCarry" [(EI 0); (EIdx (ESel (EV "f") "n") (EI 0)); (EIdx (ESel (EV "f") "n") (EI 1)); (EI 0)])];
     SDef ["r2"; "carry"] [(ECall "MACWithCarry" [(EI 0); (EIdx (ESel (EV "f") "n") (EI 0)); (EIdx (ESel (EV "f") "n") (EI 2)); (EV "carry")])];
     SDef ["r3"; "carry"] [(ECall "MACWithCarry" [(EI 0); (EIdx (ESel (EV "f") "n") (EI 0)); (EIdx (ESel (EV "f") "n") (EI 3)); (EV "carry")])];
     SDef ["r4"; "carry"] [(ECall "MACWithCarry" [(EI 0); (EIdx (ESel (EV "f") "n") (EI 0)); (EIdx (ESel (EV "f") "n") (EI 4)); (EV "carry")])];
     SDef ["r5"; "carry"] [(ECall "MACWithCarry" [(EI 0); (EIdx (ESel (EV "f") "n") (EI 0)); (EIdx (ESel (EV "f") "n") (EI 5)); (EV "carry")])];
     SDef ["r6"] [(EV "carry")];
     SAssign [(EV "r3"); (EV "carry")] [(ECall "MACWithCarry" [(EV "r3"); (EIdx (ESel (EV "f") "n") (EI 1)); (EIdx (ESel (EV "f") "n") (EI 2)); (EI 0)])];
     SAssign [(EV "r4"); (EV "carry")] [(ECall "MACWithCarry" [(EV "r4"); (EIdx (ESel (EV "f") "n") (EI 1)); (EIdx (ESel (EV "f") "n") (EI 3)); (EV "carry")])];
     SAssign [(EV "r5"); (EV "carry")] [(ECall "MACWithCarry" [(EV "r5"); (EIdx (ESel (EV "f") "n") (EI 1)); (EIdx (ESel (EV "f") "n") (EI 4)); (EV "carry")])];
     SAssign [(EV "r6"); (EV "carry")] [(ECall "MACWithCarry" [(EV "r6"); (EIdx (ESel (EV "f") "n") (EI 1)); (EIdx (ESel (EV "f") "n") (EI 5)); (EV "carry")])];
     SDef ["r7"] [(EV "carry")];
     SAssign [(EV "r5"); (EV "carry")] [(ECall "MACWithCarry" [(EV "r5"); (EIdx (ESel (EV "f") "n") (EI 2)); (EIdx (ESel (EV "f") "n") (EI 3)); (EI 0)])];
     SAssign [(EV "r6"); (EV "carry")] [(ECall "MACWithCarry" [(EV "r6"); (EIdx (ESel (EV "f") "n") (EI 2)); (EIdx (ESel (EV "f") "n") (EI 4)); (EV "carry")])];
     SAssign [(EV "r7"); (EV "carry")] [(ECall "MACWithCarry" [(EV "r7"); (EIdx (ESel (EV "f") "n") (EI 2)); (EIdx (ESel (EV "f") "n") (EI 5)); (EV "carry")])];
     SDef ["r8"] [(EV "carry")];
     SAssign [(EV "r7"); (EV "carry")] [(ECall "MACWithCarry" [(EV "r7"); (EIdx (ESel (EV "f") "n") (EI 3)); (EIdx (ESel (EV "f") "n") (EI 4)); (EI 0)])];
     SAssign [(EV "r8"); (EV "carry")] [(ECall "MACWithCarry" [(EV "r8"); (EIdx (ESel (EV "f") "n") (EI 3)); (EIdx (ESel (EV "f") "n") (EI 5)); (EV "carry")])];
     SDef ["r9"] [(EV "carry")];
     SAssign [(EV "r9"); (EV "carry")] [(ECall "MACWithCarry" [(EV "r9"); (EIdx (ESel (EV "f") "n") (EI 4)); (EIdx (ESel (EV "f") "n") (EI 5)); (EI 0)])];
     SDef ["r10"] [(EV "carry")];
     SDef ["r11"] [(EBin ">>" (EV "r10") (EI 63))];
     SAssign [(EV "r10")] [(EBin "|" (EBin "<<" (EV "r10") (EI 1)) (EBin ">>" (EV "r9") (EI 63)))];
     SAssign [(EV "r9")] [(EBin "|" (EBin "<<" (EV "r9") (EI 1)) (EBin ">>" (EV "r8") (EI 63)))];
     SAssign [(EV "r8")] [(EBin "|" (EBin "<<" (EV "r8") (EI 1)) (EBin ">>" (EV "r7") (EI 63)))];
     SAssign [(EV "r7")] [(EBin "|" (EBin "<<" (EV "r7") (EI 1)) (EBin ">>" (EV "r6") (EI 63)))];
     SAssign [(EV "r6")] [(EBin "|" (EBin "<<" (EV "r6") (EI 1)) (EBin ">>" (EV "r5") (EI 63)))];
     SAssign [(EV "r5")] [(EBin "|" (EBin "<<" (EV "r5") (EI 1)) (EBin ">>" (EV "r4") (EI 63)))];
     SAssign [(EV "r4")] [(EBin "|" (EBin "<<" (EV "r4") (EI 1)) (EBin ">>" (EV "r3") (EI 63)))];
     SAssign [(EV "r3")] [(EBin "|" (EBin "<<" (EV "r3") (EI 1)) (EBin ">>" (EV "r2") (EI 63)))];
     SAssign [(EV "r2")] [(EBin "|" (EBin "<<" (EV "r2") (EI 1)) (EBin ">>" (EV "r1") (EI 63)))];
     SAssign [(EV "r1")] [(EBin "<<" (EV "r1") (EI 1))];
     SAssign [(EV "carry")] [(EI 0)];
     SDef ["r0"; "carry"] [(ECall "MACWithCarry" [(EI 0); (EIdx (ESel (EV "f") "n") (EI 0)); (EIdx (ESel (EV "f") "n") (EI 0)); (EV "carry")])];
     SAssign [(EV "r1"); (EV "carry")] [(ECall "AddWithCarry" [(EV "r1"); (EI 0); (EV "carry")])];
     SAssign [(EV "r2"); (EV "carry")] [(ECall "MACWithCarry" [(EV "r2"); (EIdx (ESel (EV "f") "n") (EI 1)); (EIdx (ESel (EV "f") "n") (EI 1)); (EV "carry")])];
     SAssign [(EV "r3"); (EV "carry")] [(ECall "AddWithCarry" [(EV "r3"); (EI 0); (EV "carry")])];
     SAssign [(EV "r4"); (EV "carry")] [(ECall "MACWithCarry" [(EV "r4"); (EIdx (ESel (EV "f") "n") (EI 2)); (EIdx (ESel (EV "f") "n") (EI 2)); (EV "carry")])];
     SAssign [(EV "r5"); (EV "carry")] [(ECall "AddWithCarry" [(EV "r5"); (EI 0); (EV "carry")])];
     SAssign [(EV "r6"); (EV "carry")] [(ECall "MACWithCarry" [(EV "r6"); (EIdx (ESel (EV "f") "n") (EI 3)); (EIdx (ESel (EV "f") "n") (EI 3)); (EV "carry")])];
     SAssign [(EV "r7"); (EV "carry")] [(ECall "AddWithCarry" [(EV "r7"); (EI 0); (EV "carry")])];
     SAssign [(EV "r8"); (EV "carry")] [(ECall "MACWithCarry" [(EV "r8"); (EIdx (ESel (EV "f") "n") (EI 4)); (EIdx (ESel (EV "f") "n") (EI 4)); (EV "carry")])];
     SAssign [(EV "r9"); (EV "carry")] [(ECall "AddWithCarry" [(EV "r9"); (EI 0); (EV "carry")])];
     SAssign [(EV "r10"); (EV "carry")] [(ECall "MACWithCarry" [(EV "r10"); (EIdx (ESel (EV "f") "n") (EI 5)); (EIdx (ESel (EV "f") "n") (EI 5)); (EV "carry")])];
     SAssign [(EV "r11"); (EV "carry")] [(ECall "AddWithCarry" [(EV "r11"); (EI 0); (EV "carry")])];
     SExpr (EMeth (EV "f") "montReduce" [(EComp "[6]uint64" [("", (EV "r6")); ("", (EV "r7")); ("", (EV "r8")); ("", (EV "r9")); ("", (EV "r10")); ("", (EV "r11"))]); (EComp "[6]uint64" [("", (EV "r0")); ("", (EV "r1")); ("", (EV "r2")); ("", (EV "r3")); ("", (EV "r4")); ("", (EV "r5"))])])].
(** fq.go:203-217 *)
Definition src_FQ_Sqrt : func := mkFunc [("f", "FQ")] [("_", "FQ"); ("_", "bool")]
  [SDef ["a1"] [(EMeth (EV "f") "Exp" [(EV "qMinus3Over4")])];
     SDef ["a0"] [(EMeth (EV "a1") "Copy" [])];
     SExpr (EMeth (EV "a0") "SquareAssign" []);
     SExpr (EMeth (EV "a0") "MulAssign" [(EV "f")]);
     SIf [] (EMeth (EV "a0") "Equals" [(EV "negativeOneFQ")])
      [SRet [(EComp "FQ" []); (EV "false")]]
      [];
     SExpr (EMeth (EV "a1") "MulAssign" [(EV "f")]);
     SRet [(EV "a1"); (EV "true")]].
(** fq.go:219-221 *)
Definition src_isEven : func := mkFunc [("b", "FQRepr")] [("_", "bool")]
  [SRet [(EMeth (EV "b") "IsEven" [])]].
(** fq.go:224-266 *)
Definition src_FQ_Inverse : func := mkFunc [("f", "FQ")] [("_", "FQ"); ("_", "bool")]
  [SIf [] (EMeth (EV "f") "IsZero" [])
      [SRet [(EComp "FQ" []); (EV "false")]]
      [];
     SDef ["u"] [(EMeth (ESel (EV "f") "n") "Copy" [])];
     SDef ["v"] [(EMeth (EV "QFieldModulus") "Copy" [])];
     SDef ["b"] [(ECall "FQReprToFQRaw" [(EMeth (EV "FQR2") "Copy" [])])];
     SDef ["c"] [(EMeth (EV "FQZero") "Copy" [])];
     SFor [] (Some (EBin "&&" (EBin "!=" (EMeth (EV "u") "Cmp" [(EV "bigOne")]) (EI 0)) (EBin "!=" (EMeth (EV "v") "Cmp" [(EV "bigOne")]) (EI 0)))) []
      [SFor [] (Some (ECall "isEven" [(EV "u")])) []
        [SExpr (EMeth (EV "u") "Div2" []);
         SIf [] (ECall "isEven" [(ESel (EV "b") "n")])
          [SExpr (EMeth (ESel (EV "b") "n") "Div2" [])]
          [SExpr (EMeth (ESel (EV "b") "n") "AddNoCarry" [(EV "QFieldModulus")]);
           SExpr (EMeth (ESel (EV "b") "n") "Div2" [])]];
       SFor [] (Some (ECall "isEven" [(EV "v")])) []
        [SExpr (EMeth (EV "v") "Div2" []);
         SIf [] (ECall "isEven" [(ESel (EV "c") "n")])
          [SExpr (EMeth (ESel (EV "c") "n") "Div2" [])]
          [SExpr (EMeth (ESel (EV "c") "n") "AddNoCarry" [(EV "QFieldModulus")]);
           SExpr (EMeth (ESel (EV "c") "n") "Div2" [])]];
       SIf [] (EBin ">=" (EMeth (EV "u") "Cmp" [(EV "v")]) (EI 0))
        [SExpr (EMeth (EV "u") "SubNoBorrow" [(EV "v")]);
         SExpr (EMeth (EV "b") "SubAssign" [(EV "c")])]
        [SExpr (EMeth (EV "v") "SubNoBorrow" [(EV "u")]);
         SExpr (EMeth (EV "c") "SubAssign" [(EV "b")])]];
     SIf [] (EBin "==" (EMeth (EV "u") "Cmp" [(EV "bigOne")]) (EI 0))
      [SRet [(EV "b"); (EV "true")]]
      [];
     SRet [(EV "c"); (EV "true")]].
(** fq.go:269-273 *)
Definition src_FQ_Parity : func := mkFunc [("f", "FQ")] [("_", "bool")]
  [SDef ["neg"] [(EMeth (EV "f") "Copy" [])];
     SExpr (EMeth (EV "neg") "NegAssign" []);
     SRet [(EBin ">" (EMeth (EV "f") "Cmp" [(EV "neg")]) (EI 0))]].
(** fq.go:276-285 *)
Definition src_FQ_MulBits : func := mkFunc [("f", "FQ"); ("b", "*FQRepr")] [("_", "FQ")]
  [SDef ["res"] [(EMeth (EV "FQZero") "Copy" [])];
     SFor [SDef ["i"] [(ECall "uint" [(EI 0)])]] (Some (EBin "<" (EV "i") (EMeth (EV "b") "BitLen" []))) [SOp "+" (EV "i") (EI 1)]
      [SExpr (EMeth (EV "res") "DoubleAssign" []);
       SIf [] (EMeth (EV "b") "Bit" [(EV "i")])
        [SExpr (EMeth (EV "res") "AddAssign" [(EV "f")])]
        []];
     SRet [(EV "res")]].
(** fq.go:288-297 *)
Definition src_FQ_MulBytes : func := mkFunc [("f", "FQ"); ("b", "[]byte")] [("_", "FQ")]
  [SDef ["res"] [(EMeth (EV "FQZero") "Copy" [])];
     SFor [SDef ["i"] [(ECall "uint" [(EI 0)])]] (Some (EBin "<" (EV "i") (ECall "uint" [(EBin "*" (ECall "len" [(EV "b")]) (EI 8))]))) [SOp "+" (EV "i") (EI 1)]
      [SExpr (EMeth (EV "res") "DoubleAssign" []);
       SIf [] (EBin "!=" (EBin "&" (EIdx (EV "b") (EBin "/" (EV "i") (EI 8))) (EBin "<<" (EI 1) (EBin "%" (EV "i") (EI 8)))) (EI 0))
        [SExpr (EMeth (EV "res") "AddAssign" [(EV "f")])]
        []];
     SRet [(EV "res")]].
(** fq.go:300-303 *)
Definition src_HashFQ : func := mkFunc [("hasher", "hash.Hash")] [("_", "FQ")]
  [SDef ["digest"] [(EMeth (EV "hasher") "Sum" [(EV "nil")])];
     SRet [(EMeth (EV "FQOne") "MulBytes" [(EV "digest")])]].
(** fq.go:322-331 *)
Definition src_FQ_Legendre : func := mkFunc [("f", "*FQ")] [("_", "LegendreSymbol")]
  [SDef ["o"] [(EMeth (EV "f") "Exp" [(EV "qMinus1Over2")])];
     SIf [] (EMeth (EV "o") "IsZero" [])
      [SRet [(EV "LegendreZero")]]
      [SIf [] (EMeth (EV "o") "Equals" [(EV "FQOne")])
        [SRet [(EV "LegendreQuadraticResidue")]]
        [SRet [(EV "LegendreQuadraticNonResidue")]]]].
(** fq.go:334-338 *)
Definition src_FQ_ToRepr : func := mkFunc [("f", "*FQ")] [("_", "FQRepr")]
  [SDef ["out"] [(EMeth (EV "f") "Copy" [])];
     SExpr (EMeth (EV "out") "montReduce" [(EComp "[6]uint64" [("", (EI 0)); ("", (EI 0)); ("", (EI 0)); ("", (EI 0)); ("", (EI 0)); ("", (EI 0))]); (EComp "[6]uint64" [("", (EIdx (ESel (EV "f") "n") (EI 0))); ("", (EIdx (ESel (EV "f") "n") (EI 1))); ("", (EIdx (ESel (EV "f") "n") (EI 2))); ("", (EIdx (ESel (EV "f") "n") (EI 3))); ("", (EIdx (ESel (EV "f") "n") (EI 4))); ("", (EIdx (ESel (EV "f") "n") (EI 5)))])]);
     SRet [(ESel (EV "out") "n")]].
(** fq.go:341-349 *)
Definition src_RandFQ : func := mkFunc [("reader", "io.Reader")] [("_", "FQ"); ("_", "error")]
  [SDef ["r"; "err"] [(ECall "rand.Int" [(EV "reader"); (EMeth (EV "QFieldModulus") "ToBig" [])])];
     SIf [] (EBin "!=" (EV "err") (EV "nil"))
      [SRet [(EComp "FQ" []); (EV "err")]]
      [];
     SDef ["b"; "_"] [(ECall "FQReprFromBigInt" [(EV "r")])];
     SDef ["f"] [(ECall "FQReprToFQ" [(EV "b")])];
     SRet [(EV "f"); (EV "nil")]].
(** fq2.go:19-24 *)
Definition src_NewFQ2 : func := mkFunc [("c0", "FQ"); ("c1", "FQ")] [("_", "FQ2")]
  [SRet [(EComp "FQ2" [("c0", (EV "c0")); ("c1", (EV "c1"))])]].
(** fq2.go:26-28 *)
Definition src_FQ2_String : func := mkFunc [("f", "FQ2")] [("_", "string")]
  [SRet [(ECall "fmt.Sprintf" [(ES "Fq2(%s + %s * u)"); (ESel (EV "f") "c0"); (ESel (EV "f") "c1")])]].
(** fq2.go:31-37 *)
Definition src_FQ2_Cmp : func := mkFunc [("f", "FQ2"); ("other", "FQ2")] [("_", "int")]
  [SDef ["cOut"] [(EMeth (ESel (EV "f") "c1") "Cmp" [(ESel (EV "other") "c1")])];
     SIf [] (EBin "!=" (EV "cOut") (EI 0))
      [SRet [(EV "cOut")]]
      [];
     SRet [(EMeth (ESel (EV "f") "c0") "Cmp" [(ESel (EV "other") "c0")])]].
(** fq2.go:41-45 *)
Definition src_FQ2_MultiplyByNonresidueAssign : func := mkFunc [("f", "*FQ2")] []
  [SDef ["oldC0"] [(EMeth (ESel (EV "f") "c0") "Copy" [])];
     SExpr (EMeth (ESel (EV "f") "c0") "SubAssign" [(ESel (EV "f") "c1")]);
     SExpr (EMeth (ESel (EV "f") "c1") "AddAssign" [(EV "oldC0")])].
(** fq2.go:48-55 *)
Definition src_FQ2_Norm : func := mkFunc [("f", "*FQ2")] [("_", "FQ")]
  [SDef ["t0"] [(EMeth (ESel (EV "f") "c0") "Copy" [])];
     SDef ["t1"] [(EMeth (ESel (EV "f") "c1") "Copy" [])];
     SExpr (EMeth (EV "t0") "SquareAssign" []);
     SExpr (EMeth (EV "t1") "SquareAssign" []);
     SExpr (EMeth (EV "t1") "AddAssign" [(EV "t0")]);
     SRet [(EV "t1")]].
(** fq2.go:70-72 *)
Definition src_FQ2_IsZero : func := mkFunc [("f", "FQ2")] [("_", "bool")]
  [SRet [(EBin "&&" (EMeth (ESel (EV "f") "c0") "IsZero" []) (EMeth (ESel (EV "f") "c1") "IsZero" []))]].
(** fq2.go:75-89 *)
Definition src_FQ2_SquareAssign : func := mkFunc [("f", "*FQ2")] []
  [SDef ["ab"] [(EMeth (ESel (EV "f") "c0") "Copy" [])];
     SExpr (EMeth (EV "ab") "MulAssign" [(ESel (EV "f") "c1")]);
     SDef ["c0c1"] [(EMeth (ESel (EV "f") "c0") "Copy" [])];
     SExpr (EMeth (EV "c0c1") "AddAssign" [(ESel (EV "f") "c1")]);
     SDef ["c0"] [(EMeth (ESel (EV "f") "c1") "Copy" [])];
     SExpr (EMeth (EV "c0") "NegAssign" []);
     SExpr (EMeth (EV "c0") "AddAssign" [(ESel (EV "f") "c0")]);
     SExpr (EMeth (EV "c0") "MulAssign" [(EV "c0c1")]);
     SExpr (EMeth (EV "c0") "SubAssign" [(EV "ab")]);
     SExpr (EMeth (EV "c0") "AddAssign" [(EV "ab")]);
     SExpr (EMeth (EV "ab") "AddAssign" [(EV "ab")]);
     SAssign [(ESel (EV "f") "c0")] [(EV "c0")];
     SAssign [(ESel (EV "f") "c1")] [(EV "ab")]].
(** fq2.go:92-95 *)
Definition src_FQ2_DoubleAssign : func := mkFunc [("f", "*FQ2")] []
  [SExpr (EMeth (ESel (EV "f") "c0") "DoubleAssign" []);
     SExpr (EMeth (ESel (EV "f") "c1") "DoubleAssign" [])].
(** fq2.go:98-101 *)
Definition src_FQ2_NegAssign : func := mkFunc [("f", "*FQ2")] []
  [SExpr (EMeth (ESel (EV "f") "c0") "NegAssign" []);
     SExpr (EMeth (ESel (EV "f") "c1") "NegAssign" [])].
(** fq2.go:104-107 *)
Definition src_FQ2_AddAssign : func := mkFunc [("f", "*FQ2"); ("other", "FQ2")] []
  [SExpr (EMeth (ESel (EV "f") "c0") "AddAssign" [(ESel (EV "other") "c0")]);
     SExpr (EMeth (ESel (EV "f") "c1") "AddAssign" [(ESel (EV "other") "c1")])].
(** fq2.go:110-113 *)
Definition src_FQ2_SubAssign : func := mkFunc [("f", "*FQ2"); ("other", "FQ2")] []
  [SExpr (EMeth (ESel (EV "f") "c0") "SubAssign" [(ESel (EV "other") "c0")]);
     SExpr (EMeth (ESel (EV "f") "c1") "SubAssign" [(ESel (EV "other") "c1")])].
(** fq2.go:116-130 *)
Definition src_FQ2_MulAssign : func := mkFunc [("f", "*FQ2"); ("other", "FQ2")] []
  [SDef ["aa"] [(EMeth (ESel (EV "f") "c0") "Copy" [])];
     SExpr (EMeth (EV "aa") "MulAssign" [(ESel (EV "other") "c0")]);
     SDef ["bb"] [(EMeth (ESel (EV "f") "c1") "Copy" [])];
     SExpr (EMeth (EV "bb") "MulAssign" [(ESel (EV "other") "c1")]);
     SDef ["o"] [(EMeth (ESel (EV "other") "c0") "Copy" [])];
     SExpr (EMeth (EV "o") "AddAssign" [(ESel (EV "other") "c1")]);
     SExpr (EMeth (ESel (EV "f") "c1") "AddAssign" [(ESel (EV "f") "c0")]);
     SExpr (EMeth (ESel (EV "f") "c1") "MulAssign" [(EV "o")]);
     SExpr (EMeth (ESel (EV "f") "c1") "SubAssign" [(EV "aa")]);
     SExpr (EMeth (ESel (EV "f") "c1") "SubAssign" [(EV "bb")]);
     SAssign [(ESel (EV "f") "c0")] [(EV "aa")];
     SExpr (EMeth (ESel (EV "f") "c0") "SubAssign" [(EV "bb")])].
(** fq2.go:133-147 *)
Definition src_FQ2_InverseAssign : func := mkFunc [("f", "*FQ2")] [("_", "bool")]
  [SDef ["t1"] [(EMeth (ESel (EV "f") "c1") "Copy" [])];
     SExpr (EMeth (EV "t1") "SquareAssign" []);
     SDef ["t0"] [(EMeth (ESel (EV "f") "c0") "Copy" [])];
     SExpr (EMeth (EV "t0") "SquareAssign" []);
     SExpr (EMeth (EV "t0") "AddAssign" [(EV "t1")]);
     SDef ["t"; "success"] [(EMeth (EV "t0") "Inverse" [])];
     SIf [] (EUn "!" (EV "success"))
      [SRet [(EV "false")]]
      [];
     SExpr (EMeth (ESel (EV "f") "c0") "MulAssign" [(EV "t")]);
     SExpr (EMeth (ESel (EV "f") "c1") "MulAssign" [(EV "t")]);
     SExpr (EMeth (ESel (EV "f") "c1") "NegAssign" []);
     SRet [(EV "true")]].
(** fq2.go:156-158 *)
Definition src_FQ2_FrobeniusMapAssign : func := mkFunc [("f", "*FQ2"); ("power", "uint8")] []
  [SExpr (EMeth (ESel (EV "f") "c1") "MulAssign" [(EIdx (EV "frobeniusCoeffFQ2c1") (EBin "%" (EV "power") (EI 2)))])].
(** fq2.go:161-165 *)
Definition src_FQ2_Legendre : func := mkFunc [("f", "FQ2")] [("_", "LegendreSymbol")]
  [SDef ["norm"] [(EMeth (EV "f") "Norm" [])];
     SRet [(EMeth (EV "norm") "Legendre" [])]].
(** fq2.go:170-187 *)
Definition src_FQ2_Exp : func := mkFunc [("f", "FQ2"); ("n", "FQRepr")] [("_", "FQ2")]
  [SDef ["iter"] [(ECall "NewBitIterator" [(ESlice (EV "n") None None)])];
     SDef ["res"] [(EMeth (EV "FQ2One") "Copy" [])];
     SDef ["foundOne"] [(EV "false")];
     SDef ["next"; "done"] [(EMeth (EV "iter") "Next" [])];
     SFor [] (Some (EUn "!" (EV "done"))) []
      [SIf [] (EV "foundOne")
        [SExpr (EMeth (EV "res") "SquareAssign" [])]
        [SAssign [(EV "foundOne")] [(EV "next")]];
       SIf [] (EV "next")
        [SExpr (EMeth (EV "res") "MulAssign" [(EV "f")])]
        [];
       SAssign [(EV "next"); (EV "done")] [(EMeth (EV "iter") "Next" [])]];
     SRet [(EV "res")]].
(** fq2.go:193-195 *)
Definition src_FQ2_Equals : func := mkFunc [("f", "FQ2"); ("other", "FQ2")] [("_", "bool")]
  [SRet [(EBin "==" (EMeth (EV "f") "Cmp" [(EV "other")]) (EI 0))]].
(** fq2.go:198-232 *)
Definition src_FQ2_Sqrt : func := mkFunc [("f", "FQ2")] [("_", "FQ2"); ("_", "bool")]
  [SIf [] (EMeth (EV "f") "IsZero" [])
      [SRet [(EV "FQ2Zero"); (EV "true")]]
      [];
     SDef ["a1"] [(EMeth (EV "f") "Exp" [(EV "qMinus3Over4")])];
     SDef ["alpha"] [(EMeth (EV "a1") "Copy" [])];
     SExpr (EMeth (EV "alpha") "SquareAssign" []);
     SExpr (EMeth (EV "alpha") "MulAssign" [(EV "f")]);
     SDef ["a0"] [(EMeth (EV "alpha") "Copy" [])];
     SExpr (EMeth (EV "a0") "FrobeniusMapAssign" [(EI 1)]);
     SExpr (EMeth (EV "a0") "MulAssign" [(EV "alpha")]);
     SDef ["neg1"] [(EComp "FQ2" [("c0", (EV "negativeOneFQ")); ("c1", (EV "FQZero"))])];
     SIf [] (EMeth (EV "a0") "Equals" [(EV "neg1")])
      [SRet [(EComp "FQ2" []); (EV "false")]]
      [];
     SExpr (EMeth (EV "a1") "MulAssign" [(EV "f")]);
     SIf [] (EMeth (EV "alpha") "Equals" [(EV "neg1")])
      [SExpr (EMeth (EV "a1") "MulAssign" [(EComp "FQ2" [("c0", (EV "FQZero")); ("c1", (EV "FQOne"))])]);
       SRet [(EV "a1"); (EV "true")]]
      [];
     SExpr (EMeth (EV "alpha") "AddAssign" [(EV "FQ2One")]);
     SAssign [(EV "alpha")] [(EMeth (EV "alpha") "Exp" [(EV "qMinus1Over2")])];
     SExpr (EMeth (EV "alpha") "MulAssign" [(EV "a1")]);
     SRet [(EV "alpha"); (EV "true")]].
(** fq2.go:235-237 *)
Definition src_FQ2_Copy : func := mkFunc [("f", "*FQ2")] [("_", "FQ2")]
  [SRet [(EUn "*" (EV "f"))]].
(** fq2.go:240-253 *)
Definition src_RandFQ2 : func := mkFunc [("reader", "io.Reader")] [("_", "FQ2"); ("_", "error")]
  [SDef ["i0"; "err"] [(ECall "RandFQ" [(EV "reader")])];
     SIf [] (EBin "!=" (EV "err") (EV "nil"))
      [SRet [(EComp "FQ2" []); (EV "err")]]
      [];
     SDef ["i1"; "err"] [(ECall "RandFQ" [(EV "reader")])];
     SIf [] (EBin "!=" (EV "err") (EV "nil"))
      [SRet [(EComp "FQ2" []); (EV "err")]]
      [];
     SRet [(ECall "NewFQ2" [(EV "i0"); (EV "i1")]); (EV "nil")]].
(** fq2.go:256-260 *)
Definition src_FQ2_Parity : func := mkFunc [("f", "FQ2")] [("_", "bool")]
  [SDef ["neg"] [(EMeth (EV "f") "Copy" [])];
     SExpr (EMeth (EV "neg") "NegAssign" []);
     SRet [(EBin ">" (EMeth (EV "f") "Cmp" [(EV "neg")]) (EI 0))]].
(** fq2.go:263-272 *)
Definition src_FQ2_MulBits : func := mkFunc [("f", "FQ2"); ("b", "*big.Int")] [("_", "FQ2")]
  [SDef ["res"] [(EV "FQ2Zero")];
     SFor [SDef ["i"] [(EI 0)]] (Some (EBin "<" (EV "i") (EMeth (EV "b") "BitLen" []))) [SOp "+" (EV "i") (EI 1)]
      [SExpr (EMeth (EV "res") "DoubleAssign" []);
       SIf [] (EBin "==" (EMeth (EV "b") "Bit" [(EBin "-" (EBin "-" (EMeth (EV "b") "BitLen" []) (EI 1)) (EV "i"))]) (EI 1))
        [SExpr (EMeth (EV "res") "AddAssign" [(EV "f")])]
        []];
     SRet [(EV "res")]].
(** fq2.go:275-278 *)
Definition src_FQ2_DivAssign : func := mkFunc [("f", "*FQ2"); ("other", "FQ2")] []
  [SExpr (EMeth (EV "other") "InverseAssign" []);
     SExpr (EMeth (EV "f") "MulAssign" [(EV "other")])].
(** fq2.go:281-285 *)
Definition src_HashFQ2 : func := mkFunc [("hasher", "hash.Hash")] [("_", "FQ2")]
  [SDef ["digest"] [(EMeth (EV "hasher") "Sum" [(EV "nil")])];
     SDef ["newB"] [(EMeth (ECall "new" [(ET "big.Int")]) "SetBytes" [(EV "digest")])];
     SRet [(EMeth (EV "FQ2One") "MulBits" [(EV "newB")])]].
(** fq6.go:16-22 *)
Definition src_NewFQ6 : func := mkFunc [("c0", "FQ2"); ("c1", "FQ2"); ("c2", "FQ2")] [("_", "*FQ6")]
  [SRet [(EUn "&" (EComp "FQ6" [("c0", (EV "c0")); ("c1", (EV "c1")); ("c2", (EV "c2"))]))]].
(** fq6.go:24-26 *)
Definition src_FQ6_String : func := mkFunc [("f", "FQ6")] [("_", "string")]
  [SRet [(ECall "fmt.Sprintf" [(ES "Fq6(%s + %s*v + %s*v^2)"); (ESel (EV "f") "c0"); (ESel (EV "f") "c1"); (ESel (EV "f") "c2")])]].
(** fq6.go:29-31 *)
Definition src_FQ6_Copy : func := mkFunc [("f", "FQ6")] [("_", "*FQ6")]
  [SRet [(ECall "NewFQ6" [(ESel (EV "f") "c0"); (ESel (EV "f") "c1"); (ESel (EV "f") "c2")])]].
(** fq6.go:34-37 *)
Definition src_FQ6_MulByNonresidueAssign : func := mkFunc [("f", "*FQ6")] []
  [SAssign [(ESel (EV "f") "c0"); (ESel (EV "f") "c1"); (ESel (EV "f") "c2")] [(ESel (EV "f") "c2"); (ESel (EV "f") "c0"); (ESel (EV "f") "c1")];
     SExpr (EMeth (ESel (EV "f") "c0") "MultiplyByNonresidueAssign" [])].
(** fq6.go:40-57 *)
Definition src_FQ6_MulBy1Assign : func := mkFunc [("f", "*FQ6"); ("c1", "FQ2")] []
  [SDef ["b"] [(EMeth (ESel (EV "f") "c1") "Copy" [])];
     SExpr (EMeth (EV "b") "MulAssign" [(EV "c1")]);
     SDef ["tmp"] [(EMeth (ESel (EV "f") "c1") "Copy" [])];
     SExpr (EMeth (EV "tmp") "AddAssign" [(ESel (EV "f") "c2")]);
     SDef ["t1"] [(EMeth (EV "c1") "Copy" [])];
     SExpr (EMeth (EV "t1") "MulAssign" [(EV "tmp")]);
     SExpr (EMeth (EV "t1") "SubAssign" [(EV "b")]);
     SExpr (EMeth (EV "t1") "MultiplyByNonresidueAssign" []);
     SAssign [(EV "tmp")] [(EMeth (ESel (EV "f") "c0") "Copy" [])];
     SExpr (EMeth (EV "tmp") "AddAssign" [(ESel (EV "f") "c1")]);
     SDef ["t2"] [(EMeth (EV "c1") "Copy" [])];
     SExpr (EMeth (EV "t2") "MulAssign" [(EV "tmp")]);
     SExpr (EMeth (EV "t2") "SubAssign" [(EV "b")]);
     SAssign [(ESel (EV "f") "c0")] [(EV "t1")];
     SAssign [(ESel (EV "f") "c1")] [(EV "t2")];
     SAssign [(ESel (EV "f") "c2")] [(EV "b")]].
(** fq6.go:60-90 *)
Definition src_FQ6_MulBy01Assign : func := mkFunc [("f", "*FQ6"); ("c0", "FQ2"); ("c1", "FQ2")] []
  [SDef ["a"] [(EMeth (ESel (EV "f") "c0") "Copy" [])];
     SExpr (EMeth (EV "a") "MulAssign" [(EV "c0")]);
     SDef ["b"] [(EMeth (ESel (EV "f") "c1") "Copy" [])];
     SExpr (EMeth (EV "b") "MulAssign" [(EV "c1")]);
     SDef ["tmp"] [(EMeth (ESel (EV "f") "c1") "Copy" [])];
     SExpr (EMeth (EV "tmp") "AddAssign" [(ESel (EV "f") "c2")]);
     SDef ["t1"] [(EMeth (EV "c1") "Copy" [])];
     SExpr (EMeth (EV "t1") "MulAssign" [(EV "tmp")]);
     SExpr (EMeth (EV "t1") "SubAssign" [(EV "b")]);
     SExpr (EMeth (EV "t1") "MultiplyByNonresidueAssign" []);
     SExpr (EMeth (EV "t1") "AddAssign" [(EV "a")]);
     SAssign [(EV "tmp")] [(EMeth (ESel (EV "f") "c0") "Copy" [])];
     SExpr (EMeth (EV "tmp") "AddAssign" [(ESel (EV "f") "c2")]);
     SDef ["t3"] [(EMeth (EV "c0") "Copy" [])];
     SExpr (EMeth (EV "t3") "MulAssign" [(EV "tmp")]);
     SExpr (EMeth (EV "t3") "SubAssign" [(EV "a")]);
     SExpr (EMeth (EV "t3") "AddAssign" [(EV "b")]);
     SAssign [(EV "tmp")] [(EMeth (ESel (EV "f") "c0") "Copy" [])];
     SExpr (EMeth (EV "tmp") "AddAssign" [(ESel (EV "f") "c1")]);
     SDef ["t2"] [(EMeth (EV "c0") "Copy" [])];
     SExpr (EMeth (EV "t2") "AddAssign" [(EV "c1")]);
     SExpr (EMeth (EV "t2") "MulAssign" [(EV "tmp")]);
     SExpr (EMeth (EV "t2") "SubAssign" [(EV "a")]);
     SExpr (EMeth (EV "t2") "SubAssign" [(EV "b")]);
     SAssign [(ESel (EV "f") "c0")] [(EV "t1")];
     SAssign [(ESel (EV "f") "c1")] [(EV "t2")];
     SAssign [(ESel (EV "f") "c2")] [(EV "t3")]].
(** fq6.go:99-101 *)
Definition src_FQ6_Equals : func := mkFunc [("f", "FQ6"); ("other", "*FQ6")] [("_", "bool")]
  [SRet [(EBin "&&" (EBin "&&" (EMeth (ESel (EV "f") "c0") "Equals" [(ESel (EV "other") "c0")]) (EMeth (ESel (EV "f") "c1") "Equals" [(ESel (EV "other") "c1")])) (EMeth (ESel (EV "f") "c2") "Equals" [(ESel (EV "other") "c2")]))]].
(** fq6.go:104-106 *)
Definition src_FQ6_IsZero : func := mkFunc [("f", "FQ6")] [("_", "bool")]
  [SRet [(EMeth (EV "f") "Equals" [(EV "FQ6Zero")])]].
(** fq6.go:109-113 *)
Definition src_FQ6_DoubleAssign : func := mkFunc [("f", "*FQ6")] []
  [SExpr (EMeth (ESel (EV "f") "c0") "DoubleAssign" []);
     SExpr (EMeth (ESel (EV "f") "c1") "DoubleAssign" []);
     SExpr (EMeth (ESel (EV "f") "c2") "DoubleAssign" [])].
(** fq6.go:116-120 *)
Definition src_FQ6_NegAssign : func := mkFunc [("f", "*FQ6")] []
  [SExpr (EMeth (ESel (EV "f") "c0") "NegAssign" []);
     SExpr (EMeth (ESel (EV "f") "c1") "NegAssign" []);
     SExpr (EMeth (ESel (EV "f") "c2") "NegAssign" [])].
(** fq6.go:123-127 *)
Definition src_FQ6_AddAssign : func := mkFunc [("f", "*FQ6"); ("other", "*FQ6")] []
  [SExpr (EMeth (ESel (EV "f") "c0") "AddAssign" [(ESel (EV "other") "c0")]);
     SExpr (EMeth (ESel (EV "f") "c1") "AddAssign" [(ESel (EV "other") "c1")]);
     SExpr (EMeth (ESel (EV "f") "c2") "AddAssign" [(ESel (EV "other") "c2")])].
(** fq6.go:130-134 *)
Definition src_FQ6_SubAssign : func := mkFunc [("f", "*FQ6"); ("other", "*FQ6")] []
  [SExpr (EMeth (ESel (EV "f") "c0") "SubAssign" [(ESel (EV "other") "c0")]);
     SExpr (EMeth (ESel (EV "f") "c1") "SubAssign" [(ESel (EV "other") "c1")]);
     SExpr (EMeth (ESel (EV "f") "c2") "SubAssign" [(ESel (EV "other") "c2")])].
(** fq6.go:211-218 *)
Definition src_FQ6_FrobeniusMapAssign : func := mkFunc [("f", "*FQ6"); ("power", "uint8")] []
  [SExpr (EMeth (ESel (EV "f") "c0") "FrobeniusMapAssign" [(EV "power")]);
     SExpr (EMeth (ESel (EV "f") "c1") "FrobeniusMapAssign" [(EV "power")]);
     SExpr (EMeth (ESel (EV "f") "c2") "FrobeniusMapAssign" [(EV "power")]);
     SExpr (EMeth (ESel (EV "f") "c1") "MulAssign" [(EIdx (EV "frobeniusCoeffFQ6c1") (EBin "%" (EV "power") (EI 6)))]);
     SExpr (EMeth (ESel (EV "f") "c2") "MulAssign" [(EIdx (EV "frobeniusCoeffFQ6c2") (EBin "%" (EV "power") (EI 6)))])].
(** fq6.go:221-252 *)
Definition src_FQ6_SquareAssign : func := mkFunc [("f", "*FQ6")] []
  [SDef ["s0"] [(EMeth (ESel (EV "f") "c0") "Copy" [])];
     SExpr (EMeth (EV "s0") "SquareAssign" []);
     SDef ["ab"] [(EMeth (ESel (EV "f") "c0") "Copy" [])];
     SExpr (EMeth (EV "ab") "MulAssign" [(ESel (EV "f") "c1")]);
     SDef ["s1"] [(EMeth (EV "ab") "Copy" [])];
     SExpr (EMeth (EV "s1") "DoubleAssign" []);
     SDef ["s2"] [(EMeth (ESel (EV "f") "c0") "Copy" [])];
     SExpr (EMeth (EV "s2") "SubAssign" [(ESel (EV "f") "c1")]);
     SExpr (EMeth (EV "s2") "AddAssign" [(ESel (EV "f") "c2")]);
     SExpr (EMeth (EV "s2") "SquareAssign" []);
     SDef ["bc"] [(EMeth (ESel (EV "f") "c1") "Copy" [])];
     SExpr (EMeth (EV "bc") "MulAssign" [(ESel (EV "f") "c2")]);
     SDef ["s3"] [(EMeth (EV "bc") "Copy" [])];
     SExpr (EMeth (EV "s3") "DoubleAssign" []);
     SDef ["s4"] [(EMeth (ESel (EV "f") "c2") "Copy" [])];
     SExpr (EMeth (EV "s4") "SquareAssign" []);
     SAssign [(ESel (EV "f") "c0")] [(EMeth (EV "s3") "Copy" [])];
     SExpr (EMeth (ESel (EV "f") "c0") "MultiplyByNonresidueAssign" []);
     SExpr (EMeth (ESel (EV "f") "c0") "AddAssign" [(EV "s0")]);
     SAssign [(ESel (EV "f") "c1")] [(EMeth (EV "s4") "Copy" [])];
     SExpr (EMeth (ESel (EV "f") "c1") "MultiplyByNonresidueAssign" []);
     SExpr (EMeth (ESel (EV "f") "c1") "AddAssign" [(EV "s1")]);
     SAssign [(ESel (EV "f") "c2")] [(EMeth (EV "s1") "Copy" [])];
     SExpr (EMeth (ESel (EV "f") "c2") "AddAssign" [(EV "s2")]);
     SExpr (EMeth (ESel (EV "f") "c2") "AddAssign" [(EV "s3")]);
     SExpr (EMeth (ESel (EV "f") "c2") "SubAssign" [(EV "s0")]);
     SExpr (EMeth (ESel (EV "f") "c2") "SubAssign" [(EV "s4")])].
(** fq6.go:255-292 *)
Definition src_FQ6_MulAssign : func := mkFunc [("f", "*FQ6"); ("other", "*FQ6")] []
  [SDef ["aa"] [(EMeth (ESel (EV "f") "c0") "Copy" [])];
     SExpr (EMeth (EV "aa") "MulAssign" [(ESel (EV "other") "c0")]);
     SDef ["bb"] [(EMeth (ESel (EV "f") "c1") "Copy" [])];
     SExpr (EMeth (EV "bb") "MulAssign" [(ESel (EV "other") "c1")]);
     SDef ["cc"] [(EMeth (ESel (EV "f") "c2") "Copy" [])];
     SExpr (EMeth (EV "cc") "MulAssign" [(ESel (EV "other") "c2")]);
     SDef ["tmp"] [(EMeth (ESel (EV "f") "c1") "Copy" [])];
     SExpr (EMeth (EV "tmp") "AddAssign" [(ESel (EV "f") "c2")]);
     SDef ["t1"] [(EMeth (ESel (EV "other") "c1") "Copy" [])];
     SExpr (EMeth (EV "t1") "AddAssign" [(ESel (EV "other") "c2")]);
     SExpr (EMeth (EV "t1") "MulAssign" [(EV "tmp")]);
     SExpr (EMeth (EV "t1") "SubAssign" [(EV "bb")]);
     SExpr (EMeth (EV "t1") "SubAssign" [(EV "cc")]);
     SExpr (EMeth (EV "t1") "MultiplyByNonresidueAssign" []);
     SExpr (EMeth (EV "t1") "AddAssign" [(EV "aa")]);
     SAssign [(EV "tmp")] [(EMeth (ESel (EV "f") "c0") "Copy" [])];
     SExpr (EMeth (EV "tmp") "AddAssign" [(ESel (EV "f") "c2")]);
     SAssign [(ESel (EV "f") "c2")] [(EMeth (ESel (EV "other") "c0") "Copy" [])];
     SExpr (EMeth (ESel (EV "f") "c2") "AddAssign" [(ESel (EV "other") "c2")]);
     SExpr (EMeth (ESel (EV "f") "c2") "MulAssign" [(EV "tmp")]);
     SExpr (EMeth (ESel (EV "f") "c2") "SubAssign" [(EV "aa")]);
     SExpr (EMeth (ESel (EV "f") "c2") "AddAssign" [(EV "bb")]);
     SExpr (EMeth (ESel (EV "f") "c2") "SubAssign" [(EV "cc")]);
     SAssign [(EV "tmp")] [(EMeth (ESel (EV "f") "c0") "Copy" [])];
     SExpr (EMeth (EV "tmp") "AddAssign" [(ESel (EV "f") "c1")]);
     SAssign [(ESel (EV "f") "c1")] [(EMeth (ESel (EV "other") "c0") "Copy" [])];
     SExpr (EMeth (ESel (EV "f") "c1") "AddAssign" [(ESel (EV "other") "c1")]);
     SExpr (EMeth (ESel (EV "f") "c1") "MulAssign" [(EV "tmp")]);
     SExpr (EMeth (ESel (EV "f") "c1") "SubAssign" [(EV "aa")]);
     SExpr (EMeth (ESel (EV "f") "c1") "SubAssign" [(EV "bb")]);
     SExpr (EMeth (EV "cc") "MultiplyByNonresidueAssign" []);
     SExpr (EMeth (ESel (EV "f") "c1") "AddAssign" [(EV "cc")]);
     SAssign [(ESel (EV "f") "c0")] [(EV "t1")]].
(** fq6.go:295-336 *)
Definition src_FQ6_InverseAssign : func := mkFunc [("f", "*FQ6")] [("_", "bool")]
  [SDef ["c0"] [(EMeth (ESel (EV "f") "c2") "Copy" [])];
     SExpr (EMeth (EV "c0") "MultiplyByNonresidueAssign" []);
     SExpr (EMeth (EV "c0") "MulAssign" [(ESel (EV "f") "c1")]);
     SExpr (EMeth (EV "c0") "NegAssign" []);
     SDef ["c0s"] [(EMeth (ESel (EV "f") "c0") "Copy" [])];
     SExpr (EMeth (EV "c0s") "SquareAssign" []);
     SExpr (EMeth (EV "c0") "AddAssign" [(EV "c0s")]);
     SDef ["c1"] [(EMeth (ESel (EV "f") "c2") "Copy" [])];
     SExpr (EMeth (EV "c1") "SquareAssign" []);
     SExpr (EMeth (EV "c1") "MultiplyByNonresidueAssign" []);
     SDef ["c0c1"] [(EMeth (ESel (EV "f") "c0") "Copy" [])];
     SExpr (EMeth (EV "c0c1") "MulAssign" [(ESel (EV "f") "c1")]);
     SDef ["c0c2"] [(EMeth (ESel (EV "f") "c0") "Copy" [])];
     SExpr (EMeth (EV "c0c2") "MulAssign" [(ESel (EV "f") "c2")]);
     SDef ["c1c2"] [(EMeth (ESel (EV "f") "c1") "Copy" [])];
     SExpr (EMeth (EV "c1c2") "MulAssign" [(ESel (EV "f") "c2")]);
     SExpr (EMeth (EV "c1") "SubAssign" [(EV "c0c1")]);
     SDef ["c2"] [(EMeth (ESel (EV "f") "c1") "Copy" [])];
     SExpr (EMeth (EV "c2") "SquareAssign" []);
     SExpr (EMeth (EV "c2") "SubAssign" [(EV "c0c2")]);
     SDef ["tmp1"] [(EMeth (ESel (EV "f") "c2") "Copy" [])];
     SExpr (EMeth (EV "tmp1") "MulAssign" [(EV "c1")]);
     SDef ["tmp2"] [(EMeth (ESel (EV "f") "c1") "Copy" [])];
     SExpr (EMeth (EV "tmp2") "MulAssign" [(EV "c2")]);
     SExpr (EMeth (EV "tmp1") "AddAssign" [(EV "tmp2")]);
     SExpr (EMeth (EV "tmp1") "MultiplyByNonresidueAssign" []);
     SAssign [(EV "tmp2")] [(EMeth (ESel (EV "f") "c0") "Copy" [])];
     SExpr (EMeth (EV "tmp2") "MulAssign" [(EV "c0")]);
     SExpr (EMeth (EV "tmp1") "AddAssign" [(EV "tmp2")]);
     SIf [] (EUn "!" (EMeth (EV "tmp1") "InverseAssign" []))
      [SRet [(EV "false")]]
      [];
     SAssign [(ESel (EV "f") "c0")] [(EMeth (EV "tmp1") "Copy" [])];
     SExpr (EMeth (ESel (EV "f") "c0") "MulAssign" [(EV "c0")]);
     SAssign [(ESel (EV "f") "c1")] [(EMeth (EV "tmp1") "Copy" [])];
     SExpr (EMeth (ESel (EV "f") "c1") "MulAssign" [(EV "c1")]);
     SAssign [(ESel (EV "f") "c2")] [(EMeth (EV "tmp1") "Copy" [])];
     SExpr (EMeth (ESel (EV "f") "c2") "MulAssign" [(EV "c2")]);
     SRet [(EV "true")]].
(** fq6.go:339-351 *)
Definition src_FQ6_Exp : func := mkFunc [("f", "FQ6"); ("n", "*FQRepr")] [("_", "*FQ6")]
  [SDef ["nCopy"] [(EMeth (EV "n") "Copy" [])];
     SDef ["res"] [(EMeth (EV "FQ6One") "Copy" [])];
     SDef ["fi"] [(EMeth (EV "f") "Copy" [])];
     SFor [] (Some (EBin "!=" (EMeth (EV "nCopy") "Cmp" [(EV "bigZero")]) (EI 0))) []
      [SIf [] (EUn "!" (ECall "isEven" [(EV "nCopy")]))
        [SExpr (EMeth (EV "res") "MulAssign" [(EV "fi")])]
        [];
       SExpr (EMeth (EV "fi") "MulAssign" [(EV "fi")]);
       SExpr (EMeth (EV "nCopy") "Rsh" [(EI 1)])];
     SRet [(EV "res")]].
(** fq6.go:354-368 *)
Definition src_RandFQ6 : func := mkFunc [("reader", "io.Reader")] [("_", "*FQ6"); ("_", "error")]
  [SDef ["c0"; "err"] [(ECall "RandFQ2" [(EV "reader")])];
     SIf [] (EBin "!=" (EV "err") (EV "nil"))
      [SRet [(EV "nil"); (EV "err")]]
      [];
     SDef ["c1"; "err"] [(ECall "RandFQ2" [(EV "reader")])];
     SIf [] (EBin "!=" (EV "err") (EV "nil"))
      [SRet [(EV "nil"); (EV "err")]]
      [];
     SDef ["c2"; "err"] [(ECall "RandFQ2" [(EV "reader")])];
     SIf [] (EBin "!=" (EV "err") (EV "nil"))
      [SRet [(EV "nil"); (EV "err")]]
      [];
     SRet [(ECall "NewFQ6" [(EV "c0"); (EV "c1"); (EV "c2")]); (EV "nil")]].
(** fq12.go:15-20 *)
Definition src_NewFQ12 : func := mkFunc [("c0", "*FQ6"); ("c1", "*FQ6")] [("_", "*FQ12")]
  [SRet [(EUn "&" (EComp "FQ12" [("c0", (EV "c0")); ("c1", (EV "c1"))]))]].
(** fq12.go:22-24 *)
Definition src_FQ12_String : func := mkFunc [("f", "*FQ12")] [("_", "string")]
  [SRet [(ECall "fmt.Sprintf" [(ES "Fq12(%s + %s * w)"); (ESel (EV "f") "c0"); (ESel (EV "f") "c1")])]].
(** fq12.go:27-29 *)
Definition src_FQ12_ConjugateAssign : func := mkFunc [("f", "*FQ12")] []
  [SExpr (EMeth (ESel (EV "f") "c1") "NegAssign" [])].
(** fq12.go:32-47 *)
Definition src_FQ12_MulBy014Assign : func := mkFunc [("f", "*FQ12"); ("c0", "FQ2"); ("c1", "FQ2"); ("c4", "FQ2")] []
  [SDef ["aa"] [(EMeth (ESel (EV "f") "c0") "Copy" [])];
     SExpr (EMeth (EV "aa") "MulBy01Assign" [(EV "c0"); (EV "c1")]);
     SDef ["bb"] [(EMeth (ESel (EV "f") "c1") "Copy" [])];
     SExpr (EMeth (EV "bb") "MulBy1Assign" [(EV "c4")]);
     SExpr (EMeth (EV "c1") "AddAssign" [(EV "c4")]);
     SExpr (EMeth (ESel (EV "f") "c1") "AddAssign" [(ESel (EV "f") "c0")]);
     SExpr (EMeth (ESel (EV "f") "c1") "MulBy01Assign" [(EV "c0"); (EV "c1")]);
     SExpr (EMeth (ESel (EV "f") "c1") "SubAssign" [(EV "aa")]);
     SExpr (EMeth (ESel (EV "f") "c1") "SubAssign" [(EV "bb")]);
     SAssign [(ESel (EV "f") "c0")] [(EMeth (EV "bb") "Copy" [])];
     SExpr (EMeth (ESel (EV "f") "c0") "MulByNonresidueAssign" []);
     SExpr (EMeth (ESel (EV "f") "c0") "AddAssign" [(EV "aa")])].
(** fq12.go:56-58 *)
Definition src_FQ12_Equals : func := mkFunc [("f", "FQ12"); ("other", "*FQ12")] [("_", "bool")]
  [SRet [(EBin "&&" (EMeth (ESel (EV "f") "c0") "Equals" [(ESel (EV "other") "c0")]) (EMeth (ESel (EV "f") "c1") "Equals" [(ESel (EV "other") "c1")]))]].
(** fq12.go:61-64 *)
Definition src_FQ12_DoubleAssign : func := mkFunc [("f", "*FQ12")] []
  [SExpr (EMeth (ESel (EV "f") "c0") "DoubleAssign" []);
     SExpr (EMeth (ESel (EV "f") "c1") "DoubleAssign" [])].
(** fq12.go:67-70 *)
Definition src_FQ12_NegAssign : func := mkFunc [("f", "*FQ12")] []
  [SExpr (EMeth (ESel (EV "f") "c1") "NegAssign" []);
     SExpr (EMeth (ESel (EV "f") "c0") "NegAssign" [])].
(** fq12.go:73-76 *)
Definition src_FQ12_AddAssign : func := mkFunc [("f", "*FQ12"); ("other", "*FQ12")] []
  [SExpr (EMeth (ESel (EV "f") "c0") "AddAssign" [(ESel (EV "other") "c0")]);
     SExpr (EMeth (ESel (EV "f") "c1") "AddAssign" [(ESel (EV "other") "c1")])].
(** fq12.go:79-81 *)
Definition src_FQ12_IsZero : func := mkFunc [("f", "*FQ12")] [("_", "bool")]
  [SRet [(EBin "&&" (EMeth (ESel (EV "f") "c0") "IsZero" []) (EMeth (ESel (EV "f") "c1") "IsZero" []))]].
(** fq12.go:84-87 *)
Definition src_FQ12_SubAssign : func := mkFunc [("f", "*FQ12"); ("other", "*FQ12")] []
  [SExpr (EMeth (ESel (EV "f") "c0") "SubAssign" [(ESel (EV "other") "c0")]);
     SExpr (EMeth (ESel (EV "f") "c1") "SubAssign" [(ESel (EV "other") "c1")])].
(** fq12.go:90-100 *)
Definition src_RandFQ12 : func := mkFunc [("reader", "io.Reader")] [("_", "*FQ12"); ("_", "error")]
  [SDef ["a"; "err"] [(ECall "RandFQ6" [(EV "reader")])];
     SIf [] (EBin "!=" (EV "err") (EV "nil"))
      [SRet [(EV "nil"); (EV "err")]]
      [];
     SDef ["b"; "err"] [(ECall "RandFQ6" [(EV "reader")])];
     SIf [] (EBin "!=" (EV "err") (EV "nil"))
      [SRet [(EV "nil"); (EV "err")]]
      [];
     SRet [(ECall "NewFQ12" [(EV "a"); (EV "b")]); (EV "nil")]].
(** fq12.go:103-105 *)
Definition src_FQ12_Copy : func := mkFunc [("f", "FQ12")] [("_", "*FQ12")]
  [SRet [(ECall "NewFQ12" [(EMeth (ESel (EV "f") "c0") "Copy" []); (EMeth (ESel (EV "f") "c1") "Copy" [])])]].
(** fq12.go:108-120 *)
Definition src_FQ12_Exp : func := mkFunc [("f", "FQ12"); ("n", "FQRepr")] [("_", "*FQ12")]
  [SDef ["nCopy"] [(EMeth (EV "n") "Copy" [])];
     SDef ["res"] [(EMeth (EV "FQ12One") "Copy" [])];
     SDef ["fi"] [(EMeth (EV "f") "Copy" [])];
     SFor [] (Some (EBin "!=" (EMeth (EV "nCopy") "Cmp" [(EV "bigZero")]) (EI 0))) []
      [SIf [] (EUn "!" (ECall "isEven" [(EV "nCopy")]))
        [SExpr (EMeth (EV "res") "MulAssign" [(EV "fi")])]
        [];
       SExpr (EMeth (EV "fi") "MulAssign" [(EV "fi")]);
       SExpr (EMeth (EV "nCopy") "Rsh" [(EI 1)])];
     SRet [(EV "res")]].
(** fq12.go:171-177 *)
Definition src_FQ12_FrobeniusMapAssign : func := mkFunc [("f", "*FQ12"); ("power", "uint8")] []
  [SExpr (EMeth (ESel (EV "f") "c0") "FrobeniusMapAssign" [(EV "power")]);
     SExpr (EMeth (ESel (EV "f") "c1") "FrobeniusMapAssign" [(EV "power")]);
     SExpr (EMeth (ESel (ESel (EV "f") "c1") "c0") "MulAssign" [(EIdx (EV "frobeniusCoeffFQ12c1") (EBin "%" (EV "power") (EI 12)))]);
     SExpr (EMeth (ESel (ESel (EV "f") "c1") "c1") "MulAssign" [(EIdx (EV "frobeniusCoeffFQ12c1") (EBin "%" (EV "power") (EI 12)))]);
     SExpr (EMeth (ESel (ESel (EV "f") "c1") "c2") "MulAssign" [(EIdx (EV "frobeniusCoeffFQ12c1") (EBin "%" (EV "power") (EI 12)))])].
(** fq12.go:180-195 *)
Definition src_FQ12_SquareAssign : func := mkFunc [("f", "*FQ12")] []
  [SDef ["ab"] [(EMeth (ESel (EV "f") "c0") "Copy" [])];
     SExpr (EMeth (EV "ab") "MulAssign" [(ESel (EV "f") "c1")]);
     SDef ["c0c1"] [(EMeth (ESel (EV "f") "c0") "Copy" [])];
     SExpr (EMeth (EV "c0c1") "AddAssign" [(ESel (EV "f") "c1")]);
     SDef ["c0"] [(EMeth (ESel (EV "f") "c1") "Copy" [])];
     SExpr (EMeth (EV "c0") "MulByNonresidueAssign" []);
     SExpr (EMeth (EV "c0") "AddAssign" [(ESel (EV "f") "c0")]);
     SExpr (EMeth (EV "c0") "MulAssign" [(EV "c0c1")]);
     SExpr (EMeth (EV "c0") "SubAssign" [(EV "ab")]);
     SAssign [(ESel (EV "f") "c1")] [(EMeth (EV "ab") "Copy" [])];
     SExpr (EMeth (ESel (EV "f") "c1") "AddAssign" [(EV "ab")]);
     SExpr (EMeth (EV "ab") "MulByNonresidueAssign" []);
     SExpr (EMeth (EV "c0") "SubAssign" [(EV "ab")]);
     SAssign [(ESel (EV "f") "c0")] [(EV "c0")]].
(** fq12.go:198-213 *)
Definition src_FQ12_MulAssign : func := mkFunc [("f", "*FQ12"); ("other", "*FQ12")] []
  [SDef ["aa"] [(EMeth (ESel (EV "f") "c0") "Copy" [])];
     SExpr (EMeth (EV "aa") "MulAssign" [(ESel (EV "other") "c0")]);
     SDef ["bb"] [(EMeth (ESel (EV "f") "c1") "Copy" [])];
     SExpr (EMeth (EV "bb") "MulAssign" [(ESel (EV "other") "c1")]);
     SDef ["o"] [(EMeth (ESel (EV "other") "c0") "Copy" [])];
     SExpr (EMeth (EV "o") "AddAssign" [(ESel (EV "other") "c1")]);
     SExpr (EMeth (ESel (EV "f") "c1") "AddAssign" [(ESel (EV "f") "c0")]);
     SExpr (EMeth (ESel (EV "f") "c1") "MulAssign" [(EV "o")]);
     SExpr (EMeth (ESel (EV "f") "c1") "SubAssign" [(EV "aa")]);
     SExpr (EMeth (ESel (EV "f") "c1") "SubAssign" [(EV "bb")]);
     SAssign [(ESel (EV "f") "c0")] [(EMeth (EV "bb") "Copy" [])];
     SExpr (EMeth (ESel (EV "f") "c0") "MulByNonresidueAssign" []);
     SExpr (EMeth (ESel (EV "f") "c0") "AddAssign" [(EV "aa")])].
(** fq12.go:216-237 *)
Definition src_FQ12_InverseAssign : func := mkFunc [("f", "*FQ12")] [("_", "bool")]
  [SDef ["c0s"] [(EMeth (ESel (EV "f") "c0") "Copy" [])];
     SExpr (EMeth (EV "c0s") "SquareAssign" []);
     SDef ["c1s"] [(EMeth (ESel (EV "f") "c1") "Copy" [])];
     SExpr (EMeth (EV "c1s") "SquareAssign" []);
     SExpr (EMeth (EV "c1s") "MulByNonresidueAssign" []);
     SExpr (EMeth (EV "c0s") "SubAssign" [(EV "c1s")]);
     SIf [] (EUn "!" (EMeth (EV "c0s") "InverseAssign" []))
      [SRet [(EV "false")]]
      [];
     SDef ["tmp"] [(ECall "NewFQ12" [(EMeth (EV "c0s") "Copy" []); (EMeth (EV "c0s") "Copy" [])])];
     SExpr (EMeth (ESel (EV "tmp") "c0") "MulAssign" [(ESel (EV "f") "c0")]);
     SExpr (EMeth (ESel (EV "tmp") "c1") "MulAssign" [(ESel (EV "f") "c1")]);
     SExpr (EMeth (ESel (EV "tmp") "c1") "NegAssign" []);
     SAssign [(ESel (EV "f") "c0")] [(ESel (EV "tmp") "c0")];
     SAssign [(ESel (EV "f") "c1")] [(ESel (EV "tmp") "c1")];
     SRet [(EV "true")]].
(** frrepr.go:15-17 *)
Definition src_FRRepr_IsOdd : func := mkFunc [("f", "FRRepr")] [("_", "bool")]
  [SRet [(EBin "==" (EBin "&" (EIdx (EV "f") (EI 0)) (EI 1)) (EI 1))]].
(** frrepr.go:20-22 *)
Definition src_FRRepr_IsEven : func := mkFunc [("f", "FRRepr")] [("_", "bool")]
  [SRet [(EBin "==" (EBin "&" (EIdx (EV "f") (EI 0)) (EI 1)) (EI 0))]].
(** frrepr.go:25-32 *)
Definition src_FRRepr_IsZero : func := mkFunc [("f", "FRRepr")] [("_", "bool")]
  [SRange "_" "f" (EV "f")
      [SIf [] (EBin "!=" (EV "f") (EI 0))
        [SRet [(EV "false")]]
        []];
     SRet [(EV "true")]].
(** frrepr.go:35-37 *)
Definition src_NewFRRepr : func := mkFunc [("n", "uint64")] [("_", "*FRRepr")]
  [SRet [(EUn "&" (EComp "FRRepr" [("", (EV "n")); ("", (EI 0)); ("", (EI 0)); ("", (EI 0))]))]].
(** frrepr.go:40-64 *)
Definition src_FRRepr_Rsh : func := mkFunc [("f", "*FRRepr"); ("n", "uint")] []
  [SIf [] (EBin ">=" (EV "n") (EBin "*" (EI 64) (EI 4)))
      [SDef ["out"] [(ECall "NewFRRepr" [(EI 0)])];
       SAssign [(EUn "*" (EV "f"))] [(EUn "*" (EV "out"))];
       SRet []]
      [];
     SFor [] (Some (EBin ">=" (EV "n") (EI 64))) []
      [SDef ["t"] [(ECall "uint64" [(EI 0)])];
       SFor [SDef ["i"] [(EI 3)]] (Some (EBin ">=" (EV "i") (EI 0))) [SOp "-" (EV "i") (EI 1)]
        [SAssign [(EV "t"); (EIdx (EV "f") (EV "i"))] [(EIdx (EV "f") (EV "i")); (EV "t")]];
       SOp "-" (EV "n") (EI 64)];
     SIf [] (EBin ">" (EV "n") (EI 0))
      [SDef ["t"] [(ECall "uint64" [(EI 0)])];
       SFor [SDef ["i"] [(EI 3)]] (Some (EBin ">=" (EV "i") (EI 0))) [SOp "-" (EV "i") (EI 1)]
        [SDef ["t2"] [(EBin "<<" (EIdx (EV "f") (EV "i")) (EBin "-" (EI 64) (EV "n")))];
         SOp ">>" (EIdx (EV "f") (EV "i")) (EV "n");
         SOp "|" (EIdx (EV "f") (EV "i")) (EV "t");
         SAssign [(EV "t")] [(EV "t2")]]]
      []].
(** frrepr.go:67-75 *)
Definition src_FRRepr_Div2 : func := mkFunc [("f", "*FRRepr")] []
  [SDef ["t"] [(ECall "uint64" [(EI 0)])];
     SFor [SDef ["i"] [(EI 3)]] (Some (EBin ">=" (EV "i") (EI 0))) [SOp "-" (EV "i") (EI 1)]
      [SDef ["t2"] [(EBin "<<" (EIdx (EV "f") (EV "i")) (EI 63))];
       SOp ">>" (EIdx (EV "f") (EV "i")) (EI 1);
       SOp "|" (EIdx (EV "f") (EV "i")) (EV "t");
       SAssign [(EV "t")] [(EV "t2")]]].
(** frrepr.go:78-86 *)
Definition src_FRRepr_Mul2 : func := mkFunc [("f", "*FRRepr")] []
  [SDef ["last"] [(ECall "uint64" [(EI 0)])];
     SFor [SDef ["i"] [(EI 0)]] (Some (EBin "<" (EV "i") (EI 4))) [SOp "+" (EV "i") (EI 1)]
      [SDef ["tmp"] [(EBin ">>" (EIdx (EV "f") (EV "i")) (EI 63))];
       SOp "<<" (EIdx (EV "f") (EV "i")) (EI 1);
       SOp "|" (EIdx (EV "f") (EV "i")) (EV "last");
       SAssign [(EV "last")] [(EV "tmp")]]].
(** frrepr.go:89-113 *)
Definition src_FRRepr_Lsh : func := mkFunc [("f", "*FRRepr"); ("n", "uint")] []
  [SIf [] (EBin ">=" (EV "n") (EBin "*" (EI 64) (EI 4)))
      [SDef ["out"] [(ECall "NewFRRepr" [(EI 0)])];
       SAssign [(EUn "*" (EV "f"))] [(EUn "*" (EV "out"))];
       SRet []]
      [];
     SFor [] (Some (EBin ">=" (EV "n") (EI 64))) []
      [SDef ["t"] [(ECall "uint64" [(EI 0)])];
       SFor [SDef ["i"] [(EI 0)]] (Some (EBin "<" (EV "i") (EI 4))) [SOp "+" (EV "i") (EI 1)]
        [SAssign [(EV "t"); (EIdx (EV "f") (EV "i"))] [(EIdx (EV "f") (EV "i")); (EV "t")]];
       SOp "-" (EV "n") (EI 64)];
     SIf [] (EBin ">" (EV "n") (EI 0))
      [SDef ["t"] [(ECall "uint64" [(EI 0)])];
       SFor [SDef ["i"] [(EI 0)]] (Some (EBin "<" (EV "i") (EI 4))) [SOp "+" (EV "i") (EI 1)]
        [SDef ["t2"] [(EBin ">>" (EIdx (EV "f") (EV "i")) (EBin "-" (EI 64) (EV "n")))];
         SOp "<<" (EIdx (EV "f") (EV "i")) (EV "n");
         SOp "|" (EIdx (EV "f") (EV "i")) (EV "t");
         SAssign [(EV "t")] [(EV "t2")]]]
      []].
(** frrepr.go:117-122 *)
Definition src_FRRepr_AddNoCarry : func := mkFunc [("f", "*FRRepr"); ("g", "*FRRepr")] []
  [SDef ["carry"] [(ECall "uint64" [(EI 0)])];
     SFor [SDef ["i"] [(EI 0)]] (Some (EBin "<" (EV "i") (EI 4))) [SOp "+" (EV "i") (EI 1)]
      [SAssign [(EIdx (EV "f") (EV "i")); (EV "carry")] [(ECall "AddWithCarry" [(EIdx (EV "f") (EV "i")); (EIdx (EV "g") (EV "i")); (EV "carry")])]]].
(** frrepr.go:126-131 *)
Definition src_FRRepr_SubNoBorrow : func := mkFunc [("f", "*FRRepr"); ("g", "*FRRepr")] []
  [SDef ["borrow"] [(ECall "uint64" [(EI 0)])];
     SFor [SDef ["i"] [(EI 0)]] (Some (EBin "<" (EV "i") (EI 4))) [SOp "+" (EV "i") (EI 1)]
      [SAssign [(EIdx (EV "f") (EV "i")); (EV "borrow")] [(ECall "SubWithBorrow" [(EIdx (EV "f") (EV "i")); (EIdx (EV "g") (EV "i")); (EV "borrow")])]]].
(** frrepr.go:134-136 *)
Definition src_FRRepr_Equals : func := mkFunc [("f", "*FRRepr"); ("g", "*FRRepr")] [("_", "bool")]
  [SRet [(EBin "&&" (EBin "&&" (EBin "&&" (EBin "==" (EIdx (EV "f") (EI 0)) (EIdx (EV "g") (EI 0))) (EBin "==" (EIdx (EV "f") (EI 1)) (EIdx (EV "g") (EI 1)))) (EBin "==" (EIdx (EV "f") (EI 2)) (EIdx (EV "g") (EI 2)))) (EBin "==" (EIdx (EV "f") (EI 3)) (EIdx (EV "g") (EI 3))))]].
(** frrepr.go:139-148 *)
Definition src_FRRepr_Cmp : func := mkFunc [("f", "*FRRepr"); ("g", "*FRRepr")] [("_", "int")]
  [SFor [SDef ["i"] [(EI 3)]] (Some (EBin ">=" (EV "i") (EI 0))) [SOp "-" (EV "i") (EI 1)]
      [SIf [] (EBin ">" (EIdx (EV "f") (EV "i")) (EIdx (EV "g") (EV "i")))
        [SRet [(EI 1)]]
        [SIf [] (EBin "<" (EIdx (EV "f") (EV "i")) (EIdx (EV "g") (EV "i")))
          [SRet [(EUn "-" (EI 1))]]
          []]];
     SRet [(EI 0)]].
(** frrepr.go:151-156 *)
Definition src_FRRepr_Copy : func := mkFunc [("f", "*FRRepr")] [("_", "*FRRepr")]
  [SVar "newBytes" "[4]uint64";
     SExpr (ECall "copy" [(ESlice (EV "newBytes") None None); (ESlice (EV "f") None None)]);
     SDef ["newf"] [(ECall "FRRepr" [(EV "newBytes")])];
     SRet [(EUn "&" (EV "newf"))]].
(** frrepr.go:159-161 *)
Definition src_FRRepr_String : func := mkFunc [("f", "FRRepr")] [("_", "string")]
  [SRet [(ECall "fmt.Sprintf" [(ES "%016x%016x%016x%016x"); (EIdx (EV "f") (EI 3)); (EIdx (EV "f") (EI 2)); (EIdx (EV "f") (EI 1)); (EIdx (EV "f") (EI 0))])]].
(** frrepr.go:164-175 *)
Definition src_FRRepr_BitLen : func := mkFunc [("f", "FRRepr")] [("_", "uint")]
  [SDef ["ret"] [(ECall "uint" [(EBin "*" (EI 4) (EI 64))])];
     SFor [SDef ["i"] [(EI 3)]] (Some (EBin ">=" (EV "i") (EI 0))) [SOp "-" (EV "i") (EI 1)]
      [SDef ["leading"] [(ECall "uint" [(ECall "bits.LeadingZeros64" [(EIdx (EV "f") (EV "i"))])])];
       SOp "-" (EV "ret") (EV "leading");
       SIf [] (EBin "!=" (EV "leading") (EI 64))
        [SBreak]
        []];
     SRet [(EV "ret")]].
(** frrepr.go:178-184 *)
Definition src_FRReprFromBytes : func := mkFunc [("b", "[32]byte")] [("_", "*FRRepr")]
  [SDef ["m0"] [(EMeth (EV "binary.BigEndian") "Uint64" [(ESlice (EV "b") (Some (EI 0)) (Some (EI 8)))])];
     SDef ["m1"] [(EMeth (EV "binary.BigEndian") "Uint64" [(ESlice (EV "b") (Some (EI 8)) (Some (EI 16)))])];
     SDef ["m2"] [(EMeth (EV "binary.BigEndian") "Uint64" [(ESlice (EV "b") (Some (EI 16)) (Some (EI 24)))])];
     SDef ["m3"] [(EMeth (EV "binary.BigEndian") "Uint64" [(ESlice (EV "b") (Some (EI 24)) (Some (EI 32)))])];
     SRet [(EUn "&" (EComp "FRRepr" [("", (EV "m3")); ("", (EV "m2")); ("", (EV "m1")); ("", (EV "m0"))]))]].
(** frrepr.go:187-194 *)
Definition src_FRRepr_Bytes : func := mkFunc [("f", "FRRepr")] [("_", "[32]byte")]
  [SVar "out" "[32]byte";
     SExpr (EMeth (EV "binary.BigEndian") "PutUint64" [(ESlice (EV "out") (Some (EI 0)) (Some (EI 8))); (EIdx (EV "f") (EI 3))]);
     SExpr (EMeth (EV "binary.BigEndian") "PutUint64" [(ESlice (EV "out") (Some (EI 8)) (Some (EI 16))); (EIdx (EV "f") (EI 2))]);
     SExpr (EMeth (EV "binary.BigEndian") "PutUint64" [(ESlice (EV "out") (Some (EI 16)) (Some (EI 24))); (EIdx (EV "f") (EI 1))]);
     SExpr (EMeth (EV "binary.BigEndian") "PutUint64" [(ESlice (EV "out") (Some (EI 24)) (Some (EI 32))); (EIdx (EV "f") (EI 0))]);
     SRet [(EV "out")]].
(** frrepr.go:197-199 *)
Definition src_FRRepr_Bit : func := mkFunc [("f", "FRRepr"); ("n", "uint")] [("_", "bool")]
  [SRet [(EBin "!=" (EBin "&" (EIdx (EV "f") (EBin "/" (EV "n") (EI 64))) (EBin "<<" (EI 1) (EBin "%" (EV "n") (EI 64)))) (EI 0))]].
(** frrepr.go:202-208 *)
Definition src_FRReprFromString : func := mkFunc [("s", "string"); ("b", "uint")] [("_", "*FRRepr"); ("_", "error")]
  [SDef ["out"; "valid"] [(EMeth (ECall "new" [(ET "big.Int")]) "SetString" [(EV "s"); (ECall "int" [(EV "b")])])];
     SIf [] (EUn "!" (EV "valid"))
      [SRet [(EV "nil"); (ECall "errors.New" [(ES "FRRepr not valid")])]]
      [];
     SRet [(ECall "FRReprFromBigInt" [(EV "out")])]].
(** frrepr.go:211-220 *)
Definition src_FRRepr_ToBig : func := mkFunc [("f", "FRRepr")] [("_", "*big.Int")]
  [SDef ["out"] [(ECall "big.NewInt" [(EI 0)])];
     SFor [SDef ["i"] [(EI 3)]] (Some (EBin ">=" (EV "i") (EI 0))) [SOp "-" (EV "i") (EI 1)]
      [SExpr (EMeth (EV "out") "Add" [(EV "out"); (EMeth (ECall "new" [(ET "big.Int")]) "SetUint64" [(EIdx (EV "f") (EV "i"))])]);
       SIf [] (EBin "!=" (EV "i") (EI 0))
        [SExpr (EMeth (EV "out") "Lsh" [(EV "out"); (EI 64)])]
        []];
     SRet [(EV "out")]].
(** frrepr.go:223-240 *)
Definition src_FRReprFromBigInt : func := mkFunc [("n", "*big.Int")] [("_", "*FRRepr"); ("_", "error")]
  [SIf [] (EBin "||" (EBin ">" (EMeth (EV "n") "BitLen" []) (EI 256)) (EBin "==" (EMeth (EV "n") "Sign" []) (EUn "-" (EI 1))))
      [SRet [(EV "nil"); (ECall "errors.New" [(ES "invalid input string")])]]
      [];
     SDef ["out"] [(EMeth (ECall "new" [(ET "big.Int")]) "Set" [(EV "n")])];
     SDef ["newf"] [(ECall "NewFRRepr" [(EI 0)])];
     SDef ["i"] [(EI 0)];
     SFor [] (Some (EBin "!=" (EMeth (EV "out") "Cmp" [(EV "bigIntZero")]) (EI 0))) []
      [SDef ["o"] [(EMeth (ECall "new" [(ET "big.Int")]) "And" [(EV "out"); (EV "oneLsh64MinusOne")])];
       SAssign [(EIdx (EV "newf") (EV "i"))] [(EMeth (EV "o") "Uint64" [])];
       SOp "+" (EV "i") (EI 1);
       SExpr (EMeth (EV "out") "Rsh" [(EV "out"); (EI 64)])];
     SRet [(EV "newf"); (EV "nil")]].
(** frrepr.go:243-249 *)
Definition src_FRRepr_ToFQ : func := mkFunc [("f", "*FRRepr")] [("_", "FQRepr")]
  [SDef ["newf"] [(ECall "NewFQRepr" [(EIdx (EV "f") (EI 0))])];
     SAssign [(EIdx (EV "newf") (EI 1))] [(EIdx (EV "f") (EI 1))];
     SAssign [(EIdx (EV "newf") (EI 2))] [(EIdx (EV "f") (EI 2))];
     SAssign [(EIdx (EV "newf") (EI 3))] [(EIdx (EV "f") (EI 3))];
     SRet [(EV "newf")]].
(** fr.go:19-21 *)
Definition src_FR_IsValid : func := mkFunc [("f", "*FR")] [("_", "bool")]
  [SRet [(EBin "<" (EMeth (ESel (EV "f") "n") "Cmp" [(EV "RFieldModulus")]) (EI 0))]].
(** fr.go:23-27 *)
Definition src_FR_reduceAssign : func := mkFunc [("f", "*FR")] []
  [SIf [] (EUn "!" (EMeth (EV "f") "IsValid" []))
      [SExpr (EMeth (ESel (EV "f") "n") "SubNoBorrow" [(EV "RFieldModulus")])]
      []].
(** fr.go:30-32 *)
Definition src_FR_Copy : func := mkFunc [("f", "*FR")] [("_", "*FR")]
  [SRet [(EUn "&" (EComp "FR" [("", (EMeth (ESel (EV "f") "n") "Copy" []))]))]].
(** fr.go:42-49 *)
Definition src_FRReprToFR : func := mkFunc [("o", "*FRRepr")] [("_", "*FR")]
  [SDef ["r"] [(EUn "&" (EComp "FR" [("n", (EV "o"))]))];
     SIf [] (EMeth (EV "r") "IsValid" [])
      [SExpr (EMeth (EV "r") "MulAssign" [(EUn "&" (EComp "FR" [("", (EV "FRR2"))]))]);
       SRet [(EV "r")]]
      [];
     SRet [(EV "nil")]].
(** fr.go:52-55 *)
Definition src_FR_AddAssign : func := mkFunc [("f", "*FR"); ("other", "*FR")] []
  [SExpr (EMeth (ESel (EV "f") "n") "AddNoCarry" [(ESel (EV "other") "n")]);
     SExpr (EMeth (EV "f") "reduceAssign" [])].
(** fr.go:59-92 *)
Definition src_FR_montReduce : func := mkFunc [("f", "*FR"); ("r0", "uint64"); ("r1", "uint64"); ("r2", "uint64"); ("r3", "uint64"); ("r4", "uint64"); ("r5", "uint64"); ("r6", "uint64"); ("r7", "uint64")] []
  [SDef ["k"] [(EBin "*" (EV "r0") (EV "montInvFR"))];
     SDef ["_"; "carry"] [(ECall "MACWithCarry" [(EV "r0"); (EV "k"); (EIdx (EV "RFieldModulus") (EI 0)); (EI 0)])];
     SAssign [(EV "r1"); (EV "carry")] [(ECall "MACWithCarry" [(EV "r1"); (EV "k"); (EIdx (EV "RFieldModulus") (EI 1)); (EV "carry")])];
     SAssign [(EV "r2"); (EV "carry")] [(ECall "MACWithCarry" [(EV "r2"); (EV "k"); (EIdx (EV "RFieldModulus") (EI 2)); (EV "carry")])];
     SAssign [(EV "r3"); (EV "carry")] [(ECall "MACWithCarry" [(EV "r3"); (EV "k"); (EIdx (EV "RFieldModulus") (EI 3)); (EV "carry")])];
     SAssign [(EV "r4"); (EV "carry")] [(ECall "AddWithCarry" [(EV "r4"); (EI 0); (EV "carry")])];
     SDef ["carry2"] [(EV "carry")];
     SAssign [(EV "k")] [(EBin "*" (EV "r1") (EV "montInvFR"))];
     SAssign [(EV "_"); (EV "carry")] [(ECall "MACWithCarry" [(EV "r1"); (EV "k"); (EIdx (EV "RFieldModulus") (EI 0)); (EI 0)])];
     SAssign [(EV "r2"); (EV "carry")] [(ECall "MACWithCarry" [(EV "r2"); (EV "k"); (EIdx (EV "RFieldModulus") (EI 1)); (EV "carry")])];
     SAssign [(EV "r3"); (EV "carry")] [(ECall "MACWithCarry" [(EV "r3"); (EV "k"); (EIdx (EV "RFieldModulus") (EI 2)); (EV "carry")])];
     SAssign [(EV "r4"); (EV "carry")] [(ECall "MACWithCarry" [(EV "r4"); (EV "k"); (EIdx (EV "RFieldModulus") (EI 3)); (EV "carry")])];
     SAssign [(EV "r5"); (EV "carry")] [(ECall "AddWithCarry" [(EV "r5"); (EV "carry2"); (EV "carry")])];
     SAssign [(EV "carry2")] [(EV "carry")];
     SAssign [(EV "k")] [(EBin "*" (EV "r2") (EV "montInvFR"))];
     SAssign [(EV "_"); (EV "carry")] [(ECall "MACWithCarry" [(EV "r2"); (EV "k"); (EIdx (EV "RFieldModulus") (EI 0)); (EI 0)])];
     SAssign [(EV "r3"); (EV "carry")] [(ECall "MACWithCarry" [(EV "r3"); (EV "k"); (EIdx (EV "RFieldModulus") (EI 1)); (EV "carry")])];
     SAssign [(EV "r4"); (EV "carry")] [(ECall "MACWithCarry" [(EV "r4"); (EV "k"); (EIdx (EV "RFieldModulus") (EI 2)); (EV "carry")])];
     SAssign [(EV "r5"); (EV "carry")] [(ECall "MACWithCarry" [(EV "r5"); (EV "k"); (EIdx (EV "RFieldModulus") (EI 3)); (EV "carry")])];
     SAssign [(EV "r6"); (EV "carry")] [(ECall "AddWithCarry" [(EV "r6"); (EV "carry2"); (EV "carry")])];
     SAssign [(EV "carry2")] [(EV "carry")];
     SAssign [(EV "k")] [(EBin "*" (EV "r3") (EV "montInvFR"))];
     SAssign [(EV "_"); (EV "carry")] [(ECall "MACWithCarry" [(EV "r3"); (EV "k"); (EIdx (EV "RFieldModulus") (EI 0)); (EI 0)])];
     SAssign [(EV "r4"); (EV "carry")] [(ECall "MACWithCarry" [(EV "r4"); (EV "k"); (EIdx (EV "RFieldModulus") (EI 1)); (EV "carry")])];
     SAssign [(EV "r5"); (EV "carry")] [(ECall "MACWithCarry" [(EV "r5"); (EV "k"); (EIdx (EV "RFieldModulus") (EI 2)); (EV "carry")])];
     SAssign [(EV "r6"); (EV "carry")] [(ECall "MACWithCarry" [(EV "r6"); (EV "k"); (EIdx (EV "RFieldModulus") (EI 3)); (EV "carry")])];
     SAssign [(EV "r7"); (EV "_")] [(ECall "AddWithCarry" [(EV "r7"); (EV "carry2"); (EV "carry")])];
     SAssign [(EIdx (ESel (EV "f") "n") (EI 0))] [(EV "r4")];
     SAssign [(EIdx (ESel (EV "f") "n") (EI 1))] [(EV "r5")];
     SAssign [(EIdx (ESel (EV "f") "n") (EI 2))] [(EV "r6")];
     SAssign [(EIdx (ESel (EV "f") "n") (EI 3))] [(EV "r7")];
     SExpr (EMeth (EV "f") "reduceAssign" [])].
(** fr.go:95-117 *)
Definition src_FR_MulAssign : func := mkFunc [("f", "FR"); ("other", "*FR")] []
  [SDef ["r0"; "carry"] [(ECall "MACWithCarry" [(EI 0); (EIdx (ESel (EV "f") "n") (EI 0)); (EIdx (ESel (EV "other") "n") (EI 0)); (EI 0)])];
     SDef ["r1"; "carry"] [(ECall "MACWithCarry" [(EI 0); (EIdx (ESel (EV "f") "n") (EI 0)); (EIdx (ESel (EV "other") "n") (EI 1)); (EV "carry")])];
     SDef ["r2"; "carry"] [(ECall "MACWithCarry" [(EI 0); (EIdx (ESel (EV "f") "n") (EI 0)); (EIdx (ESel (EV "other") "n") (EI 2)); (EV "carry")])];
     SDef ["r3"; "carry"] [(ECall "MACWithCarry" [(EI 0); (EIdx (ESel (EV "f") "n") (EI 0)); (EIdx (ESel (EV "other") "n") (EI 3)); (EV "carry")])];
     SDef ["r4"] [(EV "carry")];
     SAssign [(EV "r1"); (EV "carry")] [(ECall "MACWithCarry" [(EV "r1"); (EIdx (ESel (EV "f") "n") (EI 1)); (EIdx (ESel (EV "other") "n") (EI 0)); (EI 0)])];
     SAssign [(EV "r2"); (EV "carry")] [(ECall "MACWithCarry" [(EV "r2"); (EIdx (ESel (EV "f") "n") (EI 1)); (EIdx (ESel (EV "other") "n") (EI 1)); (EV "carry")])];
     SAssign [(EV "r3"); (EV "carry")] [(ECall "MACWithCarry" [(EV "r3"); (EIdx (ESel (EV "f") "n") (EI 1)); (EIdx (ESel (EV "other") "n") (EI 2)); (EV "carry")])];
     SAssign [(EV "r4"); (EV "carry")] [(ECall "MACWithCarry" [(EV "r4"); (EIdx (ESel (EV "f") "n") (EI 1)); (EIdx (ESel (EV "other") "n") (EI 3)); (EV "carry")])];
     SDef ["r5"] [(EV "carry")];
     SAssign [(EV "r2"); (EV "carry")] [(ECall "MACWithCarry" [(EV "r2"); (EIdx (ESel (EV "f") "n") (EI 2)); (EIdx (ESel (EV "other") "n") (EI 0)); (EI 0)])];
     SAssign [(EV "r3"); (EV "carry")] [(ECall "MACWithCarry" [(EV "r3"); (EIdx (ESel (EV "f") "n") (EI 2)); (EIdx (ESel (EV "other") "n") (EI 1)); (EV "carry")])];
     SAssign [(EV "r4"); (EV "carry")] [(ECall "MACWithCarry" [(EV "r4"); (EIdx (ESel (EV "f") "n") (EI 2)); (EIdx (ESel (EV "other") "n") (EI 2)); (EV "carry")])];
     SAssign [(EV "r5"); (EV "carry")] [(ECall "MACWithCarry" [(EV "r5"); (EIdx (ESel (EV "f") "n") (EI 2)); (EIdx (ESel (EV "other") "n") (EI 3)); (EV "carry")])];
     SDef ["r6"] [(EV "carry")];
     SAssign [(EV "r3"); (EV "carry")] [(ECall "MACWithCarry" [(EV "r3"); (EIdx (ESel (EV "f") "n") (EI 3)); (EIdx (ESel (EV "other") "n") (EI 0)); (EI 0)])];
     SAssign [(EV "r4"); (EV "carry")] [(ECall "MACWithCarry" [(EV "r4"); (EIdx (ESel (EV "f") "n") (EI 3)); (EIdx (ESel (EV "other") "n") (EI 1)); (EV "carry")])];
     SAssign [(EV "r5"); (EV "carry")] [(ECall "MACWithCarry" [(EV "r5"); (EIdx (ESel (EV "f") "n") (EI 3)); (EIdx (ESel (EV "other") "n") (EI 2)); (EV "carry")])];
     SAssign [(EV "r6"); (EV "carry")] [(ECall "MACWithCarry" [(EV "r6"); (EIdx (ESel (EV "f") "n") (EI 3)); (EIdx (ESel (EV "other") "n") (EI 3)); (EV "carry")])];
     SDef ["r7"] [(EV "carry")];
     SExpr (EMeth (EV "f") "montReduce" [(EV "r0"); (EV "r1"); (EV "r2"); (EV "r3"); (EV "r4"); (EV "r5"); (EV "r6"); (EV "r7")])].
(** fr.go:120-125 *)
Definition src_FR_SubAssign : func := mkFunc [("f", "*FR"); ("other", "*FR")] []
  [SIf [] (EBin ">" (EMeth (ESel (EV "other") "n") "Cmp" [(ESel (EV "f") "n")]) (EI 0))
      [SExpr (EMeth (ESel (EV "f") "n") "AddNoCarry" [(EV "RFieldModulus")])]
      [];
     SExpr (EMeth (ESel (EV "f") "n") "SubNoBorrow" [(ESel (EV "other") "n")])].
(** fr.go:133-145 *)
Definition src_FR_Exp : func := mkFunc [("f", "*FR"); ("n", "*FRRepr")] [("_", "*FR")]
  [SDef ["nCopy"] [(EMeth (EV "n") "Copy" [])];
     SDef ["fi"] [(EMeth (EV "f") "Copy" [])];
     SDef ["fNew"] [(EMeth (EV "bigOneFR") "Copy" [])];
     SFor [] (Some (EBin "!=" (EMeth (EV "nCopy") "Cmp" [(EV "frZero")]) (EI 0))) []
      [SIf [] (EMeth (EV "nCopy") "IsOdd" [])
        [SExpr (EMeth (EV "fNew") "MulAssign" [(EV "fi")])]
        [];
       SExpr (EMeth (EV "fi") "SquareAssign" []);
       SExpr (EMeth (EV "nCopy") "Rsh" [(EI 1)])];
     SRet [(EV "fNew")]].
(** fr.go:148-150 *)
Definition src_FR_Equals : func := mkFunc [("f", "FR"); ("other", "*FR")] [("_", "bool")]
  [SRet [(EMeth (ESel (EV "f") "n") "Equals" [(ESel (EV "other") "n")])]].
(** fr.go:153-159 *)
Definition src_FR_NegAssign : func := mkFunc [("f", "*FR")] []
  [SIf [] (EUn "!" (EMeth (EV "f") "IsZero" []))
      [SDef ["tmp"] [(EMeth (EV "RFieldModulus") "Copy" [])];
       SExpr (EMeth (EV "tmp") "SubNoBorrow" [(ESel (EV "f") "n")]);
       SAssign [(ESel (EV "f") "n")] [(EV "tmp")]]
      []].
(** fr.go:161-163 *)
Definition src_FR_String : func := mkFunc [("f", "FR")] [("_", "string")]
  [SRet [(ECall "fmt.Sprintf" [(ES "FR(0x%s)"); (EMeth (EMeth (EV "f") "ToRepr" []) "String" [])])]].
(** fr.go:166-168 *)
Definition src_FR_Cmp : func := mkFunc [("f", "FR"); ("other", "*FR")] [("_", "int")]
  [SRet [(EMeth (EMeth (EV "f") "ToRepr" []) "Cmp" [(EMeth (EV "other") "ToRepr" [])])]].
(** fr.go:171-174 *)
Definition src_FR_DoubleAssign : func := mkFunc [("f", "*FR")] []
  [SExpr (EMeth (ESel (EV "f") "n") "Mul2" []);
     SExpr (EMeth (EV "f") "reduceAssign" [])].
(** fr.go:177-179 *)
Definition src_FR_IsZero : func := mkFunc [("f", "FR")] [("_", "bool")]
  [SRet [(EBin "==" (EMeth (ESel (EV "f") "n") "Cmp" [(EV "frZero")]) (EI 0))]].
(** fr.go:182-210 *)
Definition src_FR_SquareAssign : func := mkFunc [("f", "*FR")] []
  [SDef ["r1"; "carry"] [(ECall "MACWithCarry" [(EI 0); (EIdx (ESel (EV "f") "n") (EI 0)); (EIdx (ESel (EV "f") "n") (EI 1)); (EI 0)])];
     SDef ["r2"; "carry"] [(ECall "MACWithCarry" [(EI 0); (EIdx (ESel (EV "f") "n") (EI 0)); (EIdx (ESel (EV "f") "n") (EI 2)); (EV "carry")])];
     SDef ["r3"; "carry"] [(ECall "MACWithCarry" [(EI 0); (EIdx (ESel (EV "f") "n") (EI 0)); (EIdx (ESel (EV "f") "n") (EI 3)); (EV "carry")])];
     SDef ["r4"] [(EV "carry")];
     SAssign [(EV "r3"); (EV "carry")] [(ECall "MACWithCarry" [(EV "r3"); (EIdx (ESel (EV "f") "n") (EI 1)); (EIdx (ESel (EV "f") "n") (EI 2)); (EI 0)])];
     SAssign [(EV "r4"); (EV "carry")] [(ECall "MACWithCarry" [(EV "r4"); (EIdx (ESel (EV "f") "n") (EI 1)); (EIdx (ESel (EV "f") "n") (EI 3)); (EV "carry")])];
     SDef ["r5"] [(EV "carry")];
     SAssign [(EV "r5"); (EV "carry")] [(ECall "MACWithCarry" [(EV "r5"); (EIdx (ESel (EV "f") "n") (EI 2)); (EIdx (ESel (EV "f") "n") (EI 3)); (EI 0)])];
     SDef ["r6"] [(EV "carry")];
     SDef ["r7"] [(EBin ">>" (EV "r6") (EI 63))];
     SAssign [(EV "r6")] [(EBin "|" (EBin "<<" (EV "r6") (EI 1)) (EBin ">>" (EV "r5") (EI 63)))];
     SAssign [(EV "r5")] [(EBin "|" (EBin "<<" (EV "r5") (EI 1)) (EBin ">>" (EV "r4") (EI 63)))];
     SAssign [(EV "r4")] [(EBin "|" (EBin "<<" (EV "r4") (EI 1)) (EBin ">>" (EV "r3") (EI 63)))];
     SAssign [(EV "r3")] [(EBin "|" (EBin "<<" (EV "r3") (EI 1)) (EBin ">>" (EV "r2") (EI 63)))];
     SAssign [(EV "r2")] [(EBin "|" (EBin "<<" (EV "r2") (EI 1)) (EBin ">>" (EV "r1") (EI 63)))];
     SAssign [(EV "r1")] [(EBin "<<" (EV "r1") (EI 1))];
     SAssign [(EV "carry")] [(EI 0)];
     SDef ["r0"; "carry"] [(ECall "MACWithCarry" [(EI 0); (EIdx (ESel (EV "f") "n") (EI 0)); (EIdx (ESel (EV "f") "n") (EI 0)); (EV "carry")])];
     SAssign [(EV "r1"); (EV "carry")] [(ECall "AddWithCarry" [(EV "r1"); (EI 0); (EV "carry")])];
     SAssign [(EV "r2"); (EV "carry")] [(ECall "MACWithCarry" [(EV "r2"); (EIdx (ESel (EV "f") "n") (EI 1)); (EIdx (ESel (EV "f") "n") (EI 1)); (EV "carry")])];
     SAssign [(EV "r3"); (EV "carry")] [(ECall "AddWithCarry" [(EV "r3"); (EI 0); (EV "carry")])];
     SAssign [(EV "r4"); (EV "carry")] [(ECall "MACWithCarry" [(EV "r4"); (EIdx (ESel (EV "f") "n") (EI 2)); (EIdx (ESel (EV "f") "n") (EI 2)); (EV "carry")])];
     SAssign [(EV "r5"); (EV "carry")] [(ECall "AddWithCarry" [(EV "r5"); (EI 0); (EV "carry")])];
     SAssign [(EV "r6"); (EV "carry")] [(ECall "MACWithCarry" [(EV "r6"); (EIdx (ESel (EV "f") "n") (EI 3)); (EIdx (ESel (EV "f") "n") (EI 3)); (EV "carry")])];
     SAssign [(EV "r7"); (EV "carry")] [(ECall "AddWithCarry" [(EV "r7"); (EI 0); (EV "carry")])];
     SExpr (EMeth (EV "f") "montReduce" [(EV "r0"); (EV "r1"); (EV "r2"); (EV "r3"); (EV "r4"); (EV "r5"); (EV "r6"); (EV "r7")])].
(** fr.go:213-216 *)
Definition src_FR_Sqrt : func := mkFunc [("f", "FR")] [("_", "*FR")]
  [SRet [(ECall "FRReprToFR" [(EV "frOne")])]].
(** fr.go:219-262 *)
Definition src_FR_Inverse : func := mkFunc [("f", "FR")] [("_", "*FR")]
  [SIf [] (EMeth (EV "f") "IsZero" [])
      [SRet [(EV "nil")]]
      [];
     SDef ["u"] [(EMeth (ESel (EV "f") "n") "Copy" [])];
     SDef ["v"] [(EMeth (EV "RFieldModulus") "Copy" [])];
     SDef ["b"] [(EUn "&" (EComp "FR" [("", (EMeth (EV "FRR2") "Copy" []))]))];
     SDef ["c"] [(EMeth (EV "bigZeroFR") "Copy" [])];
     SDef ["one"] [(EUn "&" (EComp "FRRepr" [("", (EI 1)); ("", (EI 0)); ("", (EI 0)); ("", (EI 0))]))];
     SFor [] (Some (EBin "&&" (EBin "!=" (EMeth (EV "u") "Cmp" [(EV "one")]) (EI 0)) (EBin "!=" (EMeth (EV "v") "Cmp" [(EV "one")]) (EI 0)))) []
      [SFor [] (Some (EMeth (EV "u") "IsEven" [])) []
        [SExpr (EMeth (EV "u") "Div2" []);
         SIf [] (EMeth (ESel (EV "b") "n") "IsEven" [])
          [SExpr (EMeth (ESel (EV "b") "n") "Div2" [])]
          [SExpr (EMeth (ESel (EV "b") "n") "AddNoCarry" [(EV "RFieldModulus")]);
           SExpr (EMeth (ESel (EV "b") "n") "Div2" [])]];
       SFor [] (Some (EMeth (EV "v") "IsEven" [])) []
        [SExpr (EMeth (EV "v") "Div2" []);
         SIf [] (EMeth (ESel (EV "c") "n") "IsEven" [])
          [SExpr (EMeth (ESel (EV "c") "n") "Div2" [])]
          [SExpr (EMeth (ESel (EV "c") "n") "AddNoCarry" [(EV "RFieldModulus")]);
           SExpr (EMeth (ESel (EV "c") "n") "Div2" [])]];
       SIf [] (EBin ">=" (EMeth (EV "u") "Cmp" [(EV "v")]) (EI 0))
        [SExpr (EMeth (EV "u") "SubNoBorrow" [(EV "v")]);
         SExpr (EMeth (EV "b") "SubAssign" [(EV "c")])]
        [SExpr (EMeth (EV "v") "SubNoBorrow" [(EV "u")]);
         SExpr (EMeth (EV "c") "SubAssign" [(EV "b")])]];
     SIf [] (EMeth (EV "u") "Equals" [(EV "one")])
      [SRet [(EV "b")]]
      [];
     SRet [(EV "c")]].
(** fr.go:265-269 *)
Definition src_FR_Parity : func := mkFunc [("f", "FR")] [("_", "bool")]
  [SDef ["neg"] [(EMeth (EV "f") "Copy" [])];
     SExpr (EMeth (EV "neg") "NegAssign" []);
     SRet [(EBin ">" (EMeth (EV "f") "Cmp" [(EV "neg")]) (EI 0))]].
(** fr.go:272-281 *)
Definition src_FR_MulBits : func := mkFunc [("f", "FR"); ("b", "*FRRepr")] [("_", "*FR")]
  [SDef ["res"] [(EMeth (EV "bigZeroFR") "Copy" [])];
     SFor [SDef ["i"] [(ECall "uint" [(EI 0)])]] (Some (EBin "<" (EV "i") (EMeth (EV "b") "BitLen" []))) [SOp "+" (EV "i") (EI 1)]
      [SExpr (EMeth (EV "res") "DoubleAssign" []);
       SIf [] (EMeth (EV "b") "Bit" [(EV "i")])
        [SExpr (EMeth (EV "res") "AddAssign" [(EUn "&" (EV "f"))])]
        []];
     SRet [(EV "res")]].
(** fr.go:284-293 *)
Definition src_FR_MulBytes : func := mkFunc [("f", "FR"); ("b", "[]byte")] [("_", "*FR")]
  [SDef ["res"] [(EMeth (EV "bigZeroFR") "Copy" [])];
     SFor [SDef ["i"] [(ECall "uint" [(EI 0)])]] (Some (EBin "<" (EV "i") (ECall "uint" [(EBin "*" (ECall "len" [(EV "b")]) (EI 8))]))) [SOp "+" (EV "i") (EI 1)]
      [SExpr (EMeth (EV "res") "DoubleAssign" []);
       SIf [] (EBin "!=" (EBin "&" (EIdx (EV "b") (EBin "/" (EV "i") (EI 8))) (EBin "<<" (EI 1) (EBin "%" (EV "i") (EI 8)))) (EI 0))
        [SExpr (EMeth (EV "res") "AddAssign" [(EUn "&" (EV "f"))])]
        []];
     SRet [(EV "res")]].
(** fr.go:296-299 *)
Definition src_HashFR : func := mkFunc [("hasher", "hash.Hash")] [("_", "*FR")]
  [SDef ["digest"] [(EMeth (EV "hasher") "Sum" [(EV "nil")])];
     SRet [(EMeth (EV "bigOneFR") "MulBytes" [(EV "digest")])]].
(** fr.go:304-313 *)
Definition src_FR_Legendre : func := mkFunc [("f", "*FR")] [("_", "LegendreSymbol")]
  [SDef ["o"] [(EMeth (EV "f") "Exp" [(EV "rMinus1Over2")])];
     SIf [] (EMeth (EV "o") "IsZero" [])
      [SRet [(EV "LegendreZero")]]
      [SIf [] (EMeth (EV "o") "Equals" [(EV "bigOneFR")])
        [SRet [(EV "LegendreQuadraticResidue")]]
        [SRet [(EV "LegendreQuadraticNonResidue")]]]].
(** fr.go:316-329 *)
Definition src_FR_ToRepr : func := mkFunc [("f", "*FR")] [("_", "*FRRepr")]
  [SDef ["out"] [(EMeth (EV "f") "Copy" [])];
     SExpr (EMeth (EV "out") "montReduce" [(EIdx (ESel (EV "f") "n") (EI 0)); (EIdx (ESel (EV "f") "n") (EI 1)); (EIdx (ESel (EV "f") "n") (EI 2)); (EIdx (ESel (EV "f") "n") (EI 3)); (EI 0); (EI 0); (EI 0); (EI 0)]);
     SRet [(ESel (EV "out") "n")]].
(** fr.go:332-334 *)
Definition src_FR_Bytes : func := mkFunc [("f", "*FR")] [("_", "[32]byte")]
  [SRet [(EMeth (EMeth (EV "f") "ToRepr" []) "Bytes" [])]].
(** fr.go:337-344 *)
Definition src_RandFR : func := mkFunc [("reader", "io.Reader")] [("_", "*FR"); ("_", "error")]
  [SDef ["r"; "err"] [(ECall "rand.Int" [(EV "reader"); (EMeth (EV "RFieldModulus") "ToBig" [])])];
     SIf [] (EBin "!=" (EV "err") (EV "nil"))
      [SRet [(EV "nil"); (EV "err")]]
      [];
     SDef ["b"; "_"] [(ECall "FRReprFromBigInt" [(EV "r")])];
     SRet [(ECall "FRReprToFR" [(EV "b")]); (EV "nil")]].
(** g1.go:17-19 *)
Definition src_NewG1Affine : func := mkFunc [("x", "FQ"); ("y", "FQ")] [("_", "*G1Affine")]
  [SRet [(EUn "&" (EComp "G1Affine" [("x", (EV "x")); ("y", (EV "y")); ("infinity", (EV "false"))]))]].
(** g1.go:34-39 *)
Definition src_G1Affine_String : func := mkFunc [("g", "G1Affine")] [("_", "string")]
  [SIf [] (ESel (EV "g") "infinity")
      [SRet [(ECall "fmt.Sprintf" [(ES "G1(infinity)")])]]
      [];
     SRet [(ECall "fmt.Sprintf" [(ES "G1(x=%s, y=%s)"); (ESel (EV "g") "x"); (ESel (EV "g") "y")])]].
(** g1.go:42-44 *)
Definition src_G1Affine_Copy : func := mkFunc [("g", "G1Affine")] [("_", "*G1Affine")]
  [SRet [(EUn "&" (EComp "G1Affine" [("", (EMeth (ESel (EV "g") "x") "Copy" [])); ("", (EMeth (ESel (EV "g") "y") "Copy" [])); ("", (ESel (EV "g") "infinity"))]))]].
(** g1.go:47-49 *)
Definition src_G1Affine_IsZero : func := mkFunc [("g", "G1Affine")] [("_", "bool")]
  [SRet [(ESel (EV "g") "infinity")]].
(** g1.go:52-56 *)
Definition src_G1Affine_NegAssign : func := mkFunc [("g", "*G1Affine")] []
  [SIf [] (EUn "!" (EMeth (EV "g") "IsZero" []))
      [SExpr (EMeth (ESel (EV "g") "y") "NegAssign" [])]
      []].
(** g1.go:59-64 *)
Definition src_G1Affine_ToProjective : func := mkFunc [("g", "G1Affine")] [("_", "*G1Projective")]
  [SIf [] (EMeth (EV "g") "IsZero" [])
      [SRet [(EMeth (EV "G1ProjectiveZero") "Copy" [])]]
      [];
     SRet [(ECall "NewG1Projective" [(ESel (EV "g") "x"); (ESel (EV "g") "y"); (EV "FQOne")])]].
(** g1.go:67-77 *)
Definition src_G1Affine_Mul : func := mkFunc [("g", "G1Affine"); ("b", "FQRepr")] [("_", "*G1Projective")]
  [SDef ["res"] [(EMeth (EV "G1ProjectiveZero") "Copy" [])];
     SFor [SDef ["i"] [(ECall "uint" [(EI 0)])]] (Some (EBin "<" (ECall "uint" [(EV "i")]) (EMeth (EV "b") "BitLen" []))) [SOp "+" (EV "i") (EI 1)]
      [SDef ["o"] [(EMeth (EV "b") "Bit" [(EBin "-" (EBin "-" (EMeth (EV "b") "BitLen" []) (EV "i")) (EI 1))])];
       SAssign [(EV "res")] [(EMeth (EV "res") "Double" [])];
       SIf [] (EV "o")
        [SAssign [(EV "res")] [(EMeth (EV "res") "AddAffine" [(EUn "&" (EV "g"))])]]
        []];
     SRet [(EV "res")]].
(** g1.go:80-90 *)
Definition src_G1Affine_MulFR : func := mkFunc [("g", "G1Affine"); ("b", "*FRRepr")] [("_", "*G1Projective")]
  [SDef ["res"] [(EMeth (EV "G1ProjectiveZero") "Copy" [])];
     SFor [SDef ["i"] [(ECall "uint" [(EI 0)])]] (Some (EBin "<" (ECall "uint" [(EV "i")]) (EMeth (EV "b") "BitLen" []))) [SOp "+" (EV "i") (EI 1)]
      [SDef ["o"] [(EMeth (EV "b") "Bit" [(EBin "-" (EBin "-" (EMeth (EV "b") "BitLen" []) (EV "i")) (EI 1))])];
       SAssign [(EV "res")] [(EMeth (EV "res") "Double" [])];
       SIf [] (EV "o")
        [SAssign [(EV "res")] [(EMeth (EV "res") "AddAffine" [(EUn "&" (EV "g"))])]]
        []];
     SRet [(EV "res")]].
(** g1.go:93-105 *)
Definition src_G1Affine_IsOnCurve : func := mkFunc [("g", "G1Affine")] [("_", "bool")]
  [SIf [] (ESel (EV "g") "infinity")
      [SRet [(EV "true")]]
      [];
     SDef ["y2"] [(EMeth (ESel (EV "g") "y") "Copy" [])];
     SExpr (EMeth (EV "y2") "SquareAssign" []);
     SDef ["x3b"] [(EMeth (ESel (EV "g") "x") "Copy" [])];
     SExpr (EMeth (EV "x3b") "SquareAssign" []);
     SExpr (EMeth (EV "x3b") "MulAssign" [(ESel (EV "g") "x")]);
     SExpr (EMeth (EV "x3b") "AddAssign" [(EV "BCoeff")]);
     SRet [(EMeth (EV "y2") "Equals" [(EV "x3b")])]].
(** g1.go:111-131 *)
Definition src_GetG1PointFromX : func := mkFunc [("x", "FQ"); ("greatest", "bool")] [("_", "*G1Affine"); ("_", "error")]
  [SDef ["x3b"] [(EMeth (EV "x") "Copy" [])];
     SExpr (EMeth (EV "x3b") "SquareAssign" []);
     SExpr (EMeth (EV "x3b") "MulAssign" [(EV "x")]);
     SExpr (EMeth (EV "x3b") "AddAssign" [(EV "BCoeff")]);
     SDef ["y"; "success"] [(EMeth (EV "x3b") "Sqrt" [])];
     SIf [] (EUn "!" (EV "success"))
      [SRet [(EV "nil"); (ECall "errors.New" [(ES "point not on curve")])]]
      [];
     SDef ["negY"] [(EMeth (EV "y") "Copy" [])];
     SExpr (EMeth (EV "negY") "NegAssign" []);
     SDef ["yVal"] [(EV "negY")];
     SIf [] (EBin "!=" (EBin "<" (EMeth (EV "y") "Cmp" [(EV "negY")]) (EI 0)) (EV "greatest"))
      [SAssign [(EV "yVal")] [(EV "y")]]
      [];
     SRet [(ECall "NewG1Affine" [(EV "x"); (EV "yVal")]); (EV "nil")]].
(** g1.go:137-141 *)
Definition src_G1Affine_IsInCorrectSubgroupAssumingOnCurve : func := mkFunc [("g", "G1Affine")] [("_", "bool")]
  [SDef ["tmp"] [(EMeth (EV "g") "Copy" [])];
     SExpr (EMeth (EV "tmp") "MulFR" [(EV "frChar")]);
     SRet [(EMeth (EMeth (EV "tmp") "MulFR" [(EV "frChar")]) "IsZero" [])]].
(** g1.go:147-149 *)
Definition src_G1Affine_ScaleByCofactor : func := mkFunc [("g", "G1Affine")] [("_", "*G1Projective")]
  [SRet [(EMeth (EV "g") "Mul" [(EV "g1Cofactor")])]].
(** g1.go:152-154 *)
Definition src_G1Affine_Equals : func := mkFunc [("g", "G1Affine"); ("other", "*G1Affine")] [("_", "bool")]
  [SRet [(EBin "||" (EBin "&&" (EBin "==" (ESel (EV "g") "infinity") (ESel (EV "other") "infinity")) (EBin "==" (ESel (EV "g") "infinity") (EV "true"))) (EBin "&&" (EMeth (ESel (EV "g") "x") "Equals" [(ESel (EV "other") "x")]) (EMeth (ESel (EV "g") "y") "Equals" [(ESel (EV "other") "y")])))]].
(** g1.go:157-167 *)
Definition src_G1Affine_SerializeBytes : func := mkFunc [("g", "*G1Affine")] [("_", "[96]byte")]
  [SDef ["out"] [(EComp "[96]byte" [])];
     SDef ["xBytes"] [(EMeth (EMeth (ESel (EV "g") "x") "ToRepr" []) "Bytes" [])];
     SDef ["yBytes"] [(EMeth (EMeth (ESel (EV "g") "y") "ToRepr" []) "Bytes" [])];
     SExpr (ECall "copy" [(ESlice (EV "out") (Some (EI 0)) (Some (EI 48))); (ESlice (EV "xBytes") None None)]);
     SExpr (ECall "copy" [(ESlice (EV "out") (Some (EI 48)) (Some (EI 96))); (ESlice (EV "yBytes") None None)]);
     SRet [(EV "out")]].
(** g1.go:170-181 *)
Definition src_G1Affine_SetRawBytes : func := mkFunc [("g", "*G1Affine"); ("uncompressed", "[96]byte")] []
  [SVar "xBytes" "[48]byte";
     SVar "yBytes" "[48]byte";
     SExpr (ECall "copy" [(ESlice (EV "xBytes") None None); (ESlice (EV "uncompressed") (Some (EI 0)) (Some (EI 48)))]);
     SExpr (ECall "copy" [(ESlice (EV "yBytes") None None); (ESlice (EV "uncompressed") (Some (EI 48)) (Some (EI 96)))]);
     SAssign [(ESel (EV "g") "x")] [(EComp "FQ" [("n", (ECall "FQReprFromBytes" [(EV "xBytes")]))])];
     SAssign [(ESel (EV "g") "y")] [(EComp "FQ" [("n", (ECall "FQReprFromBytes" [(EV "yBytes")]))])]].
(** g1.go:185-195 *)
Definition src_DecompressG1 : func := mkFunc [("b", "[48]byte")] [("_", "*G1Affine"); ("_", "error")]
  [SDef ["affine"; "err"] [(ECall "DecompressG1Unchecked" [(EV "b")])];
     SIf [] (EBin "!=" (EV "err") (EV "nil"))
      [SRet [(EV "nil"); (EV "err")]]
      [];
     SIf [] (EUn "!" (EMeth (EV "affine") "IsInCorrectSubgroupAssumingOnCurve" []))
      [SRet [(EV "nil"); (ECall "errors.New" [(ES "not in correct subgroup")])]]
      [];
     SRet [(EV "affine"); (EV "nil")]].
(** g1.go:199-227 *)
Definition src_DecompressG1Unchecked : func := mkFunc [("b", "[48]byte")] [("_", "*G1Affine"); ("_", "error")]
  [SVar "copyBytes" "[48]byte";
     SExpr (ECall "copy" [(ESlice (EV "copyBytes") None None); (ESlice (EV "b") None None)]);
     SIf [] (EBin "==" (EBin "&" (EIdx (EV "copyBytes") (EI 0)) (EBin "<<" (EI 1) (EI 7))) (EI 0))
      [SRet [(EV "nil"); (ECall "errors.New" [(ES "unexpected compression mode")])]]
      [];
     SIf [] (EBin "!=" (EBin "&" (EIdx (EV "copyBytes") (EI 0)) (EBin "<<" (EI 1) (EI 6))) (EI 0))
      [SOp "&" (EIdx (EV "copyBytes") (EI 0)) (EI 63);
       SRange "_" "b" (EV "copyBytes")
        [SIf [] (EBin "!=" (EV "b") (EI 0))
          [SRet [(EV "nil"); (ECall "errors.New" [(ES "unexpected information in compressed infinity")])]]
          []];
       SRet [(EMeth (EV "G1AffineZero") "Copy" []); (EV "nil")]]
      [];
     SDef ["greatest"] [(EBin "!=" (EBin "&" (EIdx (EV "copyBytes") (EI 0)) (EBin "<<" (EI 1) (EI 5))) (EI 0))];
     SOp "&" (EIdx (EV "copyBytes") (EI 0)) (EI 31);
     SDef ["x"] [(ECall "FQReprFromBytes" [(EV "copyBytes")])];
     SDef ["xFQ"] [(ECall "FQReprToFQ" [(EV "x")])];
     SRet [(ECall "GetG1PointFromX" [(EV "xFQ"); (EV "greatest")])]].
(** g1.go:230-249 *)
Definition src_CompressG1 : func := mkFunc [("affine", "*G1Affine")] [("_", "[48]byte")]
  [SDef ["res"] [(EComp "[48]byte" [])];
     SIf [] (EMeth (EV "affine") "IsZero" [])
      [SOp "|" (EIdx (EV "res") (EI 0)) (EBin "<<" (EI 1) (EI 6))]
      [SDef ["out0"] [(EMeth (EMeth (ESel (EV "affine") "x") "ToRepr" []) "Bytes" [])];
       SExpr (ECall "copy" [(ESlice (EV "res") (Some (EBin "-" (EI 48) (ECall "len" [(EV "out0")]))) None); (ESlice (EV "out0") None None)]);
       SDef ["negY"] [(EMeth (ESel (EV "affine") "y") "Copy" [])];
       SExpr (EMeth (EV "negY") "NegAssign" []);
       SIf [] (EBin ">" (EMeth (ESel (EV "affine") "y") "Cmp" [(EV "negY")]) (EI 0))
        [SOp "|" (EIdx (EV "res") (EI 0)) (EBin "<<" (EI 1) (EI 5))]
        []];
     SOp "|" (EIdx (EV "res") (EI 0)) (EBin "<<" (EI 1) (EI 7));
     SRet [(EV "res")]].
(** g1.go:259-261 *)
Definition src_G1Projective_NegAssign : func := mkFunc [("g", "*G1Projective")] []
  [SExpr (EMeth (ESel (EV "g") "y") "NegAssign" [])].
(** g1.go:264-266 *)
Definition src_NewG1Projective : func := mkFunc [("x", "FQ"); ("y", "FQ"); ("z", "FQ")] [("_", "*G1Projective")]
  [SRet [(EUn "&" (EComp "G1Projective" [("", (EV "x")); ("", (EV "y")); ("", (EV "z"))]))]].
(** g1.go:274-279 *)
Definition src_G1Projective_String : func := mkFunc [("g", "G1Projective")] [("_", "string")]
  [SIf [] (EMeth (EV "g") "IsZero" [])
      [SRet [(ES "G1: Infinity")]]
      [];
     SRet [(EMeth (EMeth (EV "g") "ToAffine" []) "String" [])]].
(** g1.go:282-284 *)
Definition src_G1Projective_Copy : func := mkFunc [("g", "G1Projective")] [("_", "*G1Projective")]
  [SRet [(ECall "NewG1Projective" [(EMeth (ESel (EV "g") "x") "Copy" []); (EMeth (ESel (EV "g") "y") "Copy" []); (EMeth (ESel (EV "g") "z") "Copy" [])])]].
(** g1.go:287-289 *)
Definition src_G1Projective_IsZero : func := mkFunc [("g", "G1Projective")] [("_", "bool")]
  [SRet [(EMeth (ESel (EV "g") "z") "IsZero" [])]].
(** g1.go:292-319 *)
Definition src_G1Projective_Equal : func := mkFunc [("g", "G1Projective"); ("other", "*G1Projective")] [("_", "bool")]
  [SIf [] (EMeth (EV "g") "IsZero" [])
      [SRet [(EMeth (EV "other") "IsZero" [])]]
      [];
     SIf [] (EMeth (EV "other") "IsZero" [])
      [SRet [(EV "false")]]
      [];
     SDef ["z1"] [(EMeth (ESel (EV "g") "z") "Copy" [])];
     SExpr (EMeth (EV "z1") "SquareAssign" []);
     SDef ["z2"] [(EMeth (ESel (EV "other") "z") "Copy" [])];
     SExpr (EMeth (EV "z2") "SquareAssign" []);
     SDef ["tmp1"] [(EMeth (ESel (EV "g") "x") "Copy" [])];
     SExpr (EMeth (EV "tmp1") "MulAssign" [(EV "z2")]);
     SDef ["tmp2"] [(EMeth (ESel (EV "other") "x") "Copy" [])];
     SExpr (EMeth (EV "tmp2") "MulAssign" [(EV "z1")]);
     SIf [] (EUn "!" (EMeth (EV "tmp1") "Equals" [(EV "tmp2")]))
      [SRet [(EV "false")]]
      [];
     SExpr (EMeth (EV "z1") "MulAssign" [(ESel (EV "g") "z")]);
     SExpr (EMeth (EV "z1") "MulAssign" [(ESel (EV "other") "y")]);
     SExpr (EMeth (EV "z2") "MulAssign" [(ESel (EV "other") "z")]);
     SExpr (EMeth (EV "z2") "MulAssign" [(ESel (EV "g") "y")]);
     SRet [(EMeth (EV "z1") "Equals" [(EV "z2")])]].
(** g1.go:322-340 *)
Definition src_G1Projective_ToAffine : func := mkFunc [("g", "G1Projective")] [("_", "*G1Affine")]
  [SIf [] (EMeth (EV "g") "IsZero" [])
      [SRet [(EMeth (EV "G1AffineZero") "Copy" [])]]
      [SIf [] (EMeth (ESel (EV "g") "z") "IsZero" [])
        [SRet [(ECall "NewG1Affine" [(ESel (EV "g") "x"); (ESel (EV "g") "y")])]]
        []];
     SDef ["zInv"; "_"] [(EMeth (ESel (EV "g") "z") "Inverse" [])];
     SDef ["zInvSquared"] [(EMeth (EV "zInv") "Copy" [])];
     SExpr (EMeth (EV "zInvSquared") "SquareAssign" []);
     SDef ["x"] [(EMeth (ESel (EV "g") "x") "Copy" [])];
     SExpr (EMeth (EV "x") "MulAssign" [(EV "zInvSquared")]);
     SDef ["y"] [(EMeth (ESel (EV "g") "y") "Copy" [])];
     SExpr (EMeth (EV "y") "MulAssign" [(EV "zInvSquared")]);
     SExpr (EMeth (EV "y") "MulAssign" [(EV "zInv")]);
     SRet [(ECall "NewG1Affine" [(EV "x"); (EV "y")])]].
(** g1.go:343-397 *)
Definition src_G1Projective_Double : func := mkFunc [("g", "G1Projective")] [("_", "*G1Projective")]
  [SIf [] (EMeth (EV "g") "IsZero" [])
      [SRet [(EMeth (EV "g") "Copy" [])]]
      [];
     SDef ["a"] [(EMeth (ESel (EV "g") "x") "Copy" [])];
     SExpr (EMeth (EV "a") "SquareAssign" []);
     SDef ["b"] [(EMeth (ESel (EV "g") "y") "Copy" [])];
     SExpr (EMeth (EV "b") "SquareAssign" []);
     SDef ["c"] [(EMeth (EV "b") "Copy" [])];
     SExpr (EMeth (EV "c") "SquareAssign" []);
     SDef ["d"] [(EMeth (ESel (EV "g") "x") "Copy" [])];
     SExpr (EMeth (EV "d") "AddAssign" [(EV "b")]);
     SExpr (EMeth (EV "d") "SquareAssign" []);
     SExpr (EMeth (EV "d") "SubAssign" [(EV "a")]);
     SExpr (EMeth (EV "d") "SubAssign" [(EV "c")]);
     SExpr (EMeth (EV "d") "DoubleAssign" []);
     SDef ["e"] [(EMeth (EV "a") "Copy" [])];
     SExpr (EMeth (EV "e") "DoubleAssign" []);
     SExpr (EMeth (EV "e") "AddAssign" [(EV "a")]);
     SDef ["f"] [(EMeth (EV "e") "Copy" [])];
     SExpr (EMeth (EV "f") "SquareAssign" []);
     SDef ["newZ"] [(EMeth (ESel (EV "g") "z") "Copy" [])];
     SExpr (EMeth (EV "newZ") "MulAssign" [(ESel (EV "g") "y")]);
     SExpr (EMeth (EV "newZ") "DoubleAssign" []);
     SDef ["newX"] [(EMeth (EV "f") "Copy" [])];
     SExpr (EMeth (EV "newX") "SubAssign" [(EV "d")]);
     SExpr (EMeth (EV "newX") "SubAssign" [(EV "d")]);
     SExpr (EMeth (EV "c") "DoubleAssign" []);
     SExpr (EMeth (EV "c") "DoubleAssign" []);
     SExpr (EMeth (EV "c") "DoubleAssign" []);
     SDef ["newY"] [(EMeth (EV "d") "Copy" [])];
     SExpr (EMeth (EV "newY") "SubAssign" [(EV "newX")]);
     SExpr (EMeth (EV "newY") "MulAssign" [(EV "e")]);
     SExpr (EMeth (EV "newY") "SubAssign" [(EV "c")]);
     SRet [(ECall "NewG1Projective" [(EV "newX"); (EV "newY"); (EV "newZ")])]].
(** g1.go:400-482 *)
Definition src_G1Projective_Add : func := mkFunc [("g", "G1Projective"); ("other", "*G1Projective")] [("_", "*G1Projective")]
  [SIf [] (EMeth (EV "g") "IsZero" [])
      [SRet [(EMeth (EV "other") "Copy" [])]]
      [];
     SIf [] (EMeth (EV "other") "IsZero" [])
      [SRet [(EMeth (EV "g") "Copy" [])]]
      [];
     SDef ["z1z1"] [(EMeth (ESel (EV "g") "z") "Copy" [])];
     SExpr (EMeth (EV "z1z1") "SquareAssign" []);
     SDef ["z2z2"] [(EMeth (ESel (EV "other") "z") "Copy" [])];
     SExpr (EMeth (EV "z2z2") "SquareAssign" []);
     SDef ["u1"] [(EMeth (ESel (EV "g") "x") "Copy" [])];
     SExpr (EMeth (EV "u1") "MulAssign" [(EV "z2z2")]);
     SDef ["u2"] [(EMeth (ESel (EV "other") "x") "Copy" [])];
     SExpr (EMeth (EV "u2") "MulAssign" [(EV "z1z1")]);
     SDef ["s1"] [(EMeth (ESel (EV "g") "y") "Copy" [])];
     SExpr (EMeth (EV "s1") "MulAssign" [(ESel (EV "other") "z")]);
     SExpr (EMeth (EV "s1") "MulAssign" [(EV "z2z2")]);
     SDef ["s2"] [(EMeth (ESel (EV "other") "y") "Copy" [])];
     SExpr (EMeth (EV "s2") "MulAssign" [(ESel (EV "g") "z")]);
     SExpr (EMeth (EV "s2") "MulAssign" [(EV "z1z1")]);
     SIf [] (EBin "&&" (EMeth (EV "u1") "Equals" [(EV "u2")]) (EMeth (EV "s1") "Equals" [(EV "s2")]))
      [SRet [(EMeth (EV "g") "Double" [])]]
      [];
     SDef ["h"] [(EMeth (EV "u2") "Copy" [])];
     SExpr (EMeth (EV "h") "SubAssign" [(EV "u1")]);
     SDef ["i"] [(EMeth (EV "h") "Copy" [])];
     SExpr (EMeth (EV "i") "DoubleAssign" []);
     SExpr (EMeth (EV "i") "SquareAssign" []);
     SDef ["j"] [(EMeth (EV "h") "Copy" [])];
     SExpr (EMeth (EV "j") "MulAssign" [(EV "i")]);
     SExpr (EMeth (EV "s2") "SubAssign" [(EV "s1")]);
     SExpr (EMeth (EV "s2") "DoubleAssign" []);
     SExpr (EMeth (EV "u1") "MulAssign" [(EV "i")]);
     SDef ["newX"] [(EMeth (EV "s2") "Copy" [])];
     SExpr (EMeth (EV "newX") "SquareAssign" []);
     SExpr (EMeth (EV "newX") "SubAssign" [(EV "j")]);
     SExpr (EMeth (EV "newX") "SubAssign" [(EV "u1")]);
     SExpr (EMeth (EV "newX") "SubAssign" [(EV "u1")]);
     SExpr (EMeth (EV "u1") "SubAssign" [(EV "newX")]);
     SExpr (EMeth (EV "u1") "MulAssign" [(EV "s2")]);
     SExpr (EMeth (EV "s1") "MulAssign" [(EV "j")]);
     SExpr (EMeth (EV "s1") "DoubleAssign" []);
     SExpr (EMeth (EV "u1") "SubAssign" [(EV "s1")]);
     SDef ["newZ"] [(EMeth (ESel (EV "g") "z") "Copy" [])];
     SExpr (EMeth (EV "newZ") "AddAssign" [(ESel (EV "other") "z")]);
     SExpr (EMeth (EV "newZ") "SquareAssign" []);
     SExpr (EMeth (EV "newZ") "SubAssign" [(EV "z1z1")]);
     SExpr (EMeth (EV "newZ") "SubAssign" [(EV "z2z2")]);
     SExpr (EMeth (EV "newZ") "MulAssign" [(EV "h")]);
     SRet [(ECall "NewG1Projective" [(EV "newX"); (EV "u1"); (EV "newZ")])]].
(** g1.go:485-559 *)
Definition src_G1Projective_AddAffine : func := mkFunc [("g", "G1Projective"); ("other", "*G1Affine")] [("_", "*G1Projective")]
  [SIf [] (EMeth (EV "g") "IsZero" [])
      [SRet [(EMeth (EV "other") "ToProjective" [])]]
      [];
     SIf [] (EMeth (EV "other") "IsZero" [])
      [SRet [(EMeth (EV "g") "Copy" [])]]
      [];
     SDef ["z1z1"] [(EMeth (ESel (EV "g") "z") "Copy" [])];
     SExpr (EMeth (EV "z1z1") "SquareAssign" []);
     SDef ["u2"] [(EMeth (ESel (EV "other") "x") "Copy" [])];
     SExpr (EMeth (EV "u2") "MulAssign" [(EV "z1z1")]);
     SDef ["s2"] [(EMeth (ESel (EV "other") "y") "Copy" [])];
     SExpr (EMeth (EV "s2") "MulAssign" [(ESel (EV "g") "z")]);
     SExpr (EMeth (EV "s2") "MulAssign" [(EV "z1z1")]);
     SIf [] (EBin "&&" (EMeth (ESel (EV "g") "x") "Equals" [(EV "u2")]) (EMeth (ESel (EV "g") "y") "Equals" [(EV "s2")]))
      [SRet [(EMeth (EV "g") "Double" [])]]
      [];
     SExpr (EMeth (EV "u2") "SubAssign" [(ESel (EV "g") "x")]);
     SDef ["hh"] [(EMeth (EV "u2") "Copy" [])];
     SExpr (EMeth (EV "hh") "SquareAssign" []);
     SDef ["i"] [(EMeth (EV "hh") "Copy" [])];
     SExpr (EMeth (EV "i") "DoubleAssign" []);
     SExpr (EMeth (EV "i") "DoubleAssign" []);
     SDef ["j"] [(EMeth (EV "u2") "Copy" [])];
     SExpr (EMeth (EV "j") "MulAssign" [(EV "i")]);
     SExpr (EMeth (EV "s2") "SubAssign" [(ESel (EV "g") "y")]);
     SExpr (EMeth (EV "s2") "DoubleAssign" []);
     SDef ["v"] [(EMeth (ESel (EV "g") "x") "Copy" [])];
     SExpr (EMeth (EV "v") "MulAssign" [(EV "i")]);
     SDef ["newX"] [(EMeth (EV "s2") "Copy" [])];
     SExpr (EMeth (EV "newX") "SquareAssign" []);
     SExpr (EMeth (EV "newX") "SubAssign" [(EV "j")]);
     SExpr (EMeth (EV "newX") "SubAssign" [(EV "v")]);
     SExpr (EMeth (EV "newX") "SubAssign" [(EV "v")]);
     SDef ["newY"] [(EMeth (EV "v") "Copy" [])];
     SExpr (EMeth (EV "newY") "SubAssign" [(EV "newX")]);
     SExpr (EMeth (EV "newY") "MulAssign" [(EV "s2")]);
     SDef ["i0"] [(EMeth (ESel (EV "g") "y") "Copy" [])];
     SExpr (EMeth (EV "i0") "MulAssign" [(EV "j")]);
     SExpr (EMeth (EV "i0") "DoubleAssign" []);
     SExpr (EMeth (EV "newY") "SubAssign" [(EV "i0")]);
     SDef ["newZ"] [(EMeth (ESel (EV "g") "z") "Copy" [])];
     SExpr (EMeth (EV "newZ") "AddAssign" [(EV "u2")]);
     SExpr (EMeth (EV "newZ") "SquareAssign" []);
     SExpr (EMeth (EV "newZ") "SubAssign" [(EV "z1z1")]);
     SExpr (EMeth (EV "newZ") "SubAssign" [(EV "hh")]);
     SRet [(ECall "NewG1Projective" [(EV "newX"); (EV "newY"); (EV "newZ")])]].
(** g1.go:562-572 *)
Definition src_G1Projective_Mul : func := mkFunc [("g", "G1Projective"); ("b", "FQRepr")] [("_", "*G1Projective")]
  [SDef ["res"] [(EMeth (EV "G1ProjectiveZero") "Copy" [])];
     SFor [SDef ["i"] [(ECall "uint" [(EI 0)])]] (Some (EBin "<" (EV "i") (ECall "uint" [(EMeth (EV "b") "BitLen" [])]))) [SOp "+" (EV "i") (EI 1)]
      [SDef ["o"] [(EMeth (EV "b") "Bit" [(EBin "-" (EBin "-" (EMeth (EV "b") "BitLen" []) (EV "i")) (EI 1))])];
       SAssign [(EV "res")] [(EMeth (EV "res") "Double" [])];
       SIf [] (EV "o")
        [SAssign [(EV "res")] [(EMeth (EV "res") "Add" [(EUn "&" (EV "g"))])]]
        []];
     SRet [(EV "res")]].
(** g1.go:575-585 *)
Definition src_G1Projective_MulFR : func := mkFunc [("g", "G1Projective"); ("b", "*FRRepr")] [("_", "*G1Projective")]
  [SDef ["res"] [(EMeth (EV "G1ProjectiveZero") "Copy" [])];
     SFor [SDef ["i"] [(ECall "uint" [(EI 0)])]] (Some (EBin "<" (EV "i") (EMeth (EV "b") "BitLen" []))) [SOp "+" (EV "i") (EI 1)]
      [SDef ["o"] [(EMeth (EV "b") "Bit" [(EBin "-" (EBin "-" (EMeth (EV "b") "BitLen" []) (EV "i")) (EI 1))])];
       SAssign [(EV "res")] [(EMeth (EV "res") "Double" [])];
       SIf [] (EV "o")
        [SAssign [(EV "res")] [(EMeth (EV "res") "Add" [(EUn "&" (EV "g"))])]]
        []];
     SRet [(EV "res")]].
(** g1.go:588-612 *)
Definition src_RandG1 : func := mkFunc [("r", "io.Reader")] [("_", "*G1Projective"); ("_", "error")]
  [SFor [] None []
      [SDef ["b"] [(ECall "make" [(ET "[]byte"); (EI 1)])];
       SDef ["_"; "err"] [(EMeth (EV "r") "Read" [(EV "b")])];
       SIf [] (EBin "!=" (EV "err") (EV "nil"))
        [SRet [(EV "nil"); (EV "err")]]
        [];
       SDef ["greatest"] [(EV "false")];
       SIf [] (EBin "==" (EBin "%" (EIdx (EV "b") (EI 0)) (EI 2)) (EI 0))
        [SAssign [(EV "greatest")] [(EV "true")]]
        [];
       SDef ["f"; "err"] [(ECall "RandFQ" [(EV "r")])];
       SIf [] (EBin "!=" (EV "err") (EV "nil"))
        [SRet [(EV "nil"); (EV "err")]]
        [];
       SDef ["p"; "err"] [(ECall "GetG1PointFromX" [(EV "f"); (EV "greatest")])];
       SIf [] (EBin "!=" (EV "err") (EV "nil"))
        [SContinue]
        [];
       SDef ["p1"] [(EMeth (EV "p") "ScaleByCofactor" [])];
       SIf [] (EUn "!" (EMeth (EV "p") "IsZero" []))
        [SRet [(EV "p1"); (EV "nil")]]
        []]].
(** g1.go:621-626 *)
Definition src_signFQ : func := mkFunc [("f", "FQ")] [("_", "FQ")]
  [SIf [] (EBin ">" (EMeth (EV "f") "Cmp" [(ECall "FQReprToFQ" [(EV "qMinus1Over2")])]) (EI 0))
      [SRet [(EV "negativeOneFQ")]]
      [];
     SRet [(EV "FQOne")]].
(** g1.go:628-714 *)
Definition src_optimizedSWUMapHelper : func := mkFunc [("t", "FQ")] [("_", "*G1Affine")]
  [SDef ["numDenCommon"] [(EMeth (EV "negativeOneFQ") "Copy" [])];
     SExpr (EMeth (EV "numDenCommon") "SquareAssign" []);
     SDef ["tSquared"] [(EMeth (EV "t") "Copy" [])];
     SExpr (EMeth (EV "tSquared") "SquareAssign" []);
     SDef ["t2"] [(EMeth (EV "tSquared") "Copy" [])];
     SExpr (EMeth (EV "t2") "SquareAssign" []);
     SExpr (EMeth (EV "numDenCommon") "MulAssign" [(EV "t2")]);
     SDef ["negOneTimesTSquared"] [(EMeth (EV "negativeOneFQ") "Copy" [])];
     SExpr (EMeth (EV "negOneTimesTSquared") "MulAssign" [(EV "tSquared")]);
     SExpr (EMeth (EV "numDenCommon") "AddAssign" [(EV "negOneTimesTSquared")]);
     SVar "x0" "FQ";
     SIf [] (EMeth (EV "numDenCommon") "Equals" [(EV "FQZero")])
      [SDef ["xiA"] [(EMeth (EV "negativeOneFQ") "Copy" [])];
       SExpr (EMeth (EV "xiA") "MulAssign" [(EV "ellPA")]);
       SAssign [(EV "x0")] [(EMeth (EV "ellPB") "Copy" [])];
       SExpr (EMeth (EV "x0") "DivAssign" [(EV "xiA")])]
      [SDef ["ellPATimesCommon"] [(EMeth (EV "ellPA") "Copy" [])];
       SExpr (EMeth (EV "ellPATimesCommon") "MulAssign" [(EV "numDenCommon")]);
       SExpr (EMeth (EV "numDenCommon") "AddAssign" [(EV "FQOne")]);
       SDef ["negEllPB"] [(EMeth (EV "ellPB") "Copy" [])];
       SExpr (EMeth (EV "negEllPB") "NegAssign" []);
       SAssign [(EV "x0")] [(EV "negEllPB")];
       SExpr (EMeth (EV "x0") "MulAssign" [(EV "numDenCommon")]);
       SExpr (EMeth (EV "x0") "DivAssign" [(EV "ellPATimesCommon")])];
     SDef ["x0Cubed"] [(EMeth (EV "x0") "Copy" [])];
     SExpr (EMeth (EV "x0Cubed") "SquareAssign" []);
     SExpr (EMeth (EV "x0Cubed") "MulAssign" [(EV "x0")]);
     SDef ["ellPAX0"] [(EMeth (EV "ellPA") "Copy" [])];
     SExpr (EMeth (EV "ellPAX0") "MulAssign" [(EV "x0")]);
     SDef ["gx0"] [(EV "x0Cubed")];
     SExpr (EMeth (EV "gx0") "AddAssign" [(EV "ellPAX0")]);
     SExpr (EMeth (EV "gx0") "AddAssign" [(EV "ellPB")]);
     SDef ["sqrtGX0"; "found"] [(EMeth (EV "gx0") "Sqrt" [])];
     SVar "x" "FQ";
     SVar "y" "FQ";
     SIf [] (EV "found")
      [SAssign [(EV "x")] [(EV "x0")];
       SAssign [(EV "y")] [(EV "sqrtGX0")]]
      [SDef ["x1"] [(EMeth (EV "negativeOneFQ") "Copy" [])];
       SExpr (EMeth (EV "x1") "MulAssign" [(EV "tSquared")]);
       SExpr (EMeth (EV "x1") "MulAssign" [(EV "x0")]);
       SDef ["ellPAX1"] [(EMeth (EV "ellPA") "Copy" [])];
       SExpr (EMeth (EV "ellPAX1") "MulAssign" [(EV "x1")]);
       SDef ["gx1"] [(EMeth (EV "x1") "Copy" [])];
       SExpr (EMeth (EV "gx1") "SquareAssign" []);
       SExpr (EMeth (EV "gx1") "MulAssign" [(EV "x1")]);
       SExpr (EMeth (EV "gx1") "AddAssign" [(EV "ellPAX1")]);
       SExpr (EMeth (EV "gx1") "AddAssign" [(EV "ellPB")]);
       SDef ["sqrtGX1"; "found"] [(EMeth (EV "gx1") "Sqrt" [])];
       SIf [] (EUn "!" (EV "found"))
        [SExpr (ECall "panic" [(ES "this should never happen")])]
        [];
       SAssign [(EV "x")] [(EV "x1")];
       SAssign [(EV "y")] [(EV "sqrtGX1")]];
     SDef ["signT"] [(ECall "signFQ" [(EV "t")])];
     SDef ["signYT"] [(ECall "signFQ" [(EV "y")])];
     SExpr (EMeth (EV "signYT") "MulAssign" [(EV "signT")]);
     SExpr (EMeth (EV "y") "MulAssign" [(EV "signYT")]);
     SRet [(ECall "NewG1Affine" [(EV "x"); (EV "y")])]].
(** g2.go:19-21 *)
Definition src_NewG2Affine : func := mkFunc [("x", "FQ2"); ("y", "FQ2")] [("_", "*G2Affine")]
  [SRet [(EUn "&" (EComp "G2Affine" [("x", (EV "x")); ("y", (EV "y")); ("infinity", (EV "false"))]))]].
(** g2.go:45-50 *)
Definition src_G2Affine_String : func := mkFunc [("g", "G2Affine")] [("_", "string")]
  [SIf [] (ESel (EV "g") "infinity")
      [SRet [(ECall "fmt.Sprintf" [(ES "G2(Infinity)")])]]
      [];
     SRet [(ECall "fmt.Sprintf" [(ES "G2(x=%s, y=%s)"); (ESel (EV "g") "x"); (ESel (EV "g") "y")])]].
(** g2.go:53-55 *)
Definition src_G2Affine_Copy : func := mkFunc [("g", "G2Affine")] [("_", "*G2Affine")]
  [SRet [(EUn "&" (EComp "G2Affine" [("", (EMeth (ESel (EV "g") "x") "Copy" [])); ("", (EMeth (ESel (EV "g") "y") "Copy" [])); ("", (ESel (EV "g") "infinity"))]))]].
(** g2.go:58-60 *)
Definition src_G2Affine_IsZero : func := mkFunc [("g", "G2Affine")] [("_", "bool")]
  [SRet [(ESel (EV "g") "infinity")]].
(** g2.go:63-67 *)
Definition src_G2Affine_NegAssign : func := mkFunc [("g", "*G2Affine")] []
  [SIf [] (EUn "!" (EMeth (EV "g") "IsZero" []))
      [SExpr (EMeth (ESel (EV "g") "y") "NegAssign" [])]
      []].
(** g2.go:70-76 *)
Definition src_G2Affine_ToProjective : func := mkFunc [("g", "G2Affine")] [("_", "*G2Projective")]
  [SIf [] (EMeth (EV "g") "IsZero" [])
      [SRet [(EMeth (EV "G2ProjectiveZero") "Copy" [])]]
      [];
     SRet [(ECall "NewG2Projective" [(ESel (EV "g") "x"); (ESel (EV "g") "y"); (EV "FQ2One")])]].
(** g2.go:79-89 *)
Definition src_G2Affine_Mul : func := mkFunc [("g", "G2Affine"); ("b", "FQRepr")] [("_", "*G2Projective")]
  [SDef ["res"] [(EMeth (EV "G2ProjectiveZero") "Copy" [])];
     SFor [SDef ["i"] [(ECall "uint" [(EI 0)])]] (Some (EBin "<" (EV "i") (EMeth (EV "b") "BitLen" []))) [SOp "+" (EV "i") (EI 1)]
      [SDef ["o"] [(EMeth (EV "b") "Bit" [(EBin "-" (EBin "-" (EMeth (EV "b") "BitLen" []) (EV "i")) (EI 1))])];
       SAssign [(EV "res")] [(EMeth (EV "res") "Double" [])];
       SIf [] (EV "o")
        [SAssign [(EV "res")] [(EMeth (EV "res") "AddAffine" [(EUn "&" (EV "g"))])]]
        []];
     SRet [(EV "res")]].
(** g2.go:92-102 *)
Definition src_G2Affine_MulFR : func := mkFunc [("g", "G2Affine"); ("b", "*FRRepr")] [("_", "*G2Projective")]
  [SDef ["res"] [(EMeth (EV "G2ProjectiveZero") "Copy" [])];
     SFor [SDef ["i"] [(ECall "uint" [(EI 0)])]] (Some (EBin "<" (EV "i") (EMeth (EV "b") "BitLen" []))) [SOp "+" (EV "i") (EI 1)]
      [SDef ["o"] [(EMeth (EV "b") "Bit" [(EBin "-" (EBin "-" (EMeth (EV "b") "BitLen" []) (EV "i")) (EI 1))])];
       SAssign [(EV "res")] [(EMeth (EV "res") "Double" [])];
       SIf [] (EV "o")
        [SAssign [(EV "res")] [(EMeth (EV "res") "AddAffine" [(EUn "&" (EV "g"))])]]
        []];
     SRet [(EV "res")]].
(** g2.go:105-115 *)
Definition src_G2Affine_MulBig : func := mkFunc [("g", "G2Affine"); ("b", "big.Int")] [("_", "*G2Projective")]
  [SDef ["res"] [(EMeth (EV "G2ProjectiveZero") "Copy" [])];
     SFor [SDef ["i"] [(EI 0)]] (Some (EBin "<" (EV "i") (EMeth (EV "b") "BitLen" []))) [SOp "+" (EV "i") (EI 1)]
      [SDef ["o"] [(EMeth (EV "b") "Bit" [(EBin "-" (EBin "-" (EMeth (EV "b") "BitLen" []) (EV "i")) (EI 1))])];
       SAssign [(EV "res")] [(EMeth (EV "res") "Double" [])];
       SIf [] (EBin "==" (EV "o") (EI 1))
        [SAssign [(EV "res")] [(EMeth (EV "res") "AddAffine" [(EUn "&" (EV "g"))])]]
        []];
     SRet [(EV "res")]].
(** g2.go:118-130 *)
Definition src_G2Affine_IsOnCurve : func := mkFunc [("g", "G2Affine")] [("_", "bool")]
  [SIf [] (ESel (EV "g") "infinity")
      [SRet [(EV "true")]]
      [];
     SDef ["y2"] [(EMeth (ESel (EV "g") "y") "Copy" [])];
     SExpr (EMeth (EV "y2") "SquareAssign" []);
     SDef ["x3b"] [(EMeth (ESel (EV "g") "x") "Copy" [])];
     SExpr (EMeth (EV "x3b") "SquareAssign" []);
     SExpr (EMeth (EV "x3b") "MulAssign" [(ESel (EV "g") "x")]);
     SExpr (EMeth (EV "x3b") "AddAssign" [(EV "BCoeffFQ2")]);
     SRet [(EMeth (EV "y2") "Equals" [(EV "x3b")])]].
(** g2.go:136-138 *)
Definition src_G2Affine_ScaleByCofactor : func := mkFunc [("g", "G2Affine")] [("_", "*G2Projective")]
  [SRet [(EMeth (EV "g") "MulBig" [(EUn "*" (EV "g2Cofactor"))])]].
(** g2.go:141-143 *)
Definition src_G2Affine_Equals : func := mkFunc [("g", "G2Affine"); ("other", "*G2Affine")] [("_", "bool")]
  [SRet [(EBin "||" (EBin "==" (ESel (EV "g") "infinity") (ESel (EV "other") "infinity")) (EBin "&&" (EMeth (ESel (EV "g") "x") "Equals" [(ESel (EV "other") "x")]) (EMeth (ESel (EV "g") "y") "Equals" [(ESel (EV "other") "y")])))]].
(** g2.go:149-169 *)
Definition src_GetG2PointFromX : func := mkFunc [("x", "FQ2"); ("greatest", "bool")] [("_", "*G2Affine"); ("_", "error")]
  [SDef ["x3b"] [(EMeth (EV "x") "Copy" [])];
     SExpr (EMeth (EV "x3b") "SquareAssign" []);
     SExpr (EMeth (EV "x3b") "MulAssign" [(EV "x")]);
     SExpr (EMeth (EV "x3b") "AddAssign" [(EV "BCoeffFQ2")]);
     SDef ["y"; "success"] [(EMeth (EV "x3b") "Sqrt" [])];
     SIf [] (EUn "!" (EV "success"))
      [SRet [(EV "nil"); (ECall "errors.New" [(ES "point not on curve")])]]
      [];
     SDef ["negY"] [(EMeth (EV "y") "Copy" [])];
     SExpr (EMeth (EV "negY") "NegAssign" []);
     SDef ["yVal"] [(EV "negY")];
     SIf [] (EBin "!=" (EBin "<" (EMeth (EV "y") "Cmp" [(EV "negY")]) (EI 0)) (EV "greatest"))
      [SAssign [(EV "yVal")] [(EV "y")]]
      [];
     SRet [(ECall "NewG2Affine" [(EV "x"); (EV "yVal")]); (EV "nil")]].
(** g2.go:172-186 *)
Definition src_G2Affine_SerializeBytes : func := mkFunc [("g", "*G2Affine")] [("_", "[192]byte")]
  [SDef ["out"] [(EComp "[192]byte" [])];
     SDef ["xC0Bytes"] [(EMeth (EMeth (ESel (ESel (EV "g") "x") "c0") "ToRepr" []) "Bytes" [])];
     SDef ["xC1Bytes"] [(EMeth (EMeth (ESel (ESel (EV "g") "x") "c1") "ToRepr" []) "Bytes" [])];
     SDef ["yC0Bytes"] [(EMeth (EMeth (ESel (ESel (EV "g") "y") "c0") "ToRepr" []) "Bytes" [])];
     SDef ["yC1Bytes"] [(EMeth (EMeth (ESel (ESel (EV "g") "y") "c1") "ToRepr" []) "Bytes" [])];
     SExpr (ECall "copy" [(ESlice (EV "out") (Some (EI 0)) (Some (EI 48))); (ESlice (EV "xC0Bytes") None None)]);
     SExpr (ECall "copy" [(ESlice (EV "out") (Some (EI 48)) (Some (EI 96))); (ESlice (EV "xC1Bytes") None None)]);
     SExpr (ECall "copy" [(ESlice (EV "out") (Some (EI 96)) (Some (EI 144))); (ESlice (EV "yC0Bytes") None None)]);
     SExpr (ECall "copy" [(ESlice (EV "out") (Some (EI 144)) (Some (EI 192))); (ESlice (EV "yC1Bytes") None None)]);
     SRet [(EV "out")]].
(** g2.go:189-215 *)
Definition src_G2Affine_SetRawBytes : func := mkFunc [("g", "*G2Affine"); ("uncompressed", "[192]byte")] [("_", "error")]
  [SVar "xC0Bytes" "[48]byte";
     SVar "xC1Bytes" "[48]byte";
     SVar "yC0Bytes" "[48]byte";
     SVar "yC1Bytes" "[48]byte";
     SExpr (ECall "copy" [(ESlice (EV "xC0Bytes") None None); (ESlice (EV "uncompressed") (Some (EI 0)) (Some (EI 48)))]);
     SExpr (ECall "copy" [(ESlice (EV "xC1Bytes") None None); (ESlice (EV "uncompressed") (Some (EI 48)) (Some (EI 96)))]);
     SExpr (ECall "copy" [(ESlice (EV "yC0Bytes") None None); (ESlice (EV "uncompressed") (Some (EI 96)) (Some (EI 144)))]);
     SExpr (ECall "copy" [(ESlice (EV "yC1Bytes") None None); (ESlice (EV "uncompressed") (Some (EI 144)) (Some (EI 192)))]);
     SDef ["xc0FQ"] [(ECall "FQReprToFQ" [(ECall "FQReprFromBytes" [(EV "xC0Bytes")])])];
     SDef ["xc1FQ"] [(ECall "FQReprToFQ" [(ECall "FQReprFromBytes" [(EV "xC1Bytes")])])];
     SDef ["yc0FQ"] [(ECall "FQReprToFQ" [(ECall "FQReprFromBytes" [(EV "yC0Bytes")])])];
     SDef ["yc1FQ"] [(ECall "FQReprToFQ" [(ECall "FQReprFromBytes" [(EV "yC1Bytes")])])];
     SAssign [(ESel (EV "g") "x")] [(EComp "FQ2" [("c0", (EV "xc0FQ")); ("c1", (EV "xc1FQ"))])];
     SAssign [(ESel (EV "g") "y")] [(EComp "FQ2" [("c0", (EV "yc0FQ")); ("c1", (EV "yc1FQ"))])];
     SRet [(EV "nil")]].
(** g2.go:219-229 *)
Definition src_DecompressG2 : func := mkFunc [("c", "[96]byte")] [("_", "*G2Affine"); ("_", "error")]
  [SDef ["affine"; "err"] [(ECall "DecompressG2Unchecked" [(EV "c")])];
     SIf [] (EBin "!=" (EV "err") (EV "nil"))
      [SRet [(EV "nil"); (EV "err")]]
      [];
     SIf [] (EUn "!" (EMeth (EV "affine") "IsInCorrectSubgroupAssumingOnCurve" []))
      [SRet [(EV "nil"); (ECall "errors.New" [(ES "point is not in correct subgroup")])]]
      [];
     SRet [(EV "affine"); (EV "nil")]].
(** g2.go:232-265 *)
Definition src_DecompressG2Unchecked : func := mkFunc [("c", "[96]byte")] [("_", "*G2Affine"); ("_", "error")]
  [SIf [] (EBin "==" (EBin "&" (EIdx (EV "c") (EI 0)) (EBin "<<" (EI 1) (EI 7))) (EI 0))
      [SRet [(EV "nil"); (ECall "errors.New" [(ES "unexpected compression mode")])]]
      [];
     SIf [] (EBin "!=" (EBin "&" (EIdx (EV "c") (EI 0)) (EBin "<<" (EI 1) (EI 6))) (EI 0))
      [SOp "&" (EIdx (EV "c") (EI 0)) (EI 63);
       SRange "_" "b" (EV "c")
        [SIf [] (EBin "!=" (EV "b") (EI 0))
          [SRet [(EV "nil"); (ECall "errors.New" [(ES "unexpected information in infinity point on G2")])]]
          []];
       SRet [(EMeth (EV "G2AffineZero") "Copy" []); (EV "nil")]]
      [];
     SDef ["greatest"] [(EBin "!=" (EBin "&" (EIdx (EV "c") (EI 0)) (EBin "<<" (EI 1) (EI 5))) (EI 0))];
     SOp "&" (EIdx (EV "c") (EI 0)) (EI 31);
     SVar "xC0Bytes" "[48]byte";
     SVar "xC1Bytes" "[48]byte";
     SExpr (ECall "copy" [(ESlice (EV "xC1Bytes") None None); (ESlice (EV "c") None (Some (EI 48)))]);
     SExpr (ECall "copy" [(ESlice (EV "xC0Bytes") None None); (ESlice (EV "c") (Some (EI 48)) None)]);
     SDef ["xC0"] [(ECall "FQReprFromBytes" [(EV "xC0Bytes")])];
     SDef ["xC0FQ"] [(ECall "FQReprToFQ" [(EV "xC0")])];
     SDef ["xC1"] [(ECall "FQReprFromBytes" [(EV "xC1Bytes")])];
     SDef ["xC1FQ"] [(ECall "FQReprToFQ" [(EV "xC1")])];
     SDef ["x"] [(ECall "NewFQ2" [(EV "xC0FQ"); (EV "xC1FQ")])];
     SRet [(ECall "GetG2PointFromX" [(EV "x"); (EV "greatest")])]].
(** g2.go:268-289 *)
Definition src_CompressG2 : func := mkFunc [("affine", "*G2Affine")] [("_", "[96]byte")]
  [SDef ["res"] [(EComp "[96]byte" [])];
     SIf [] (EMeth (EV "affine") "IsZero" [])
      [SOp "|" (EIdx (EV "res") (EI 0)) (EBin "<<" (EI 1) (EI 6))]
      [SDef ["out0"] [(EMeth (EMeth (ESel (ESel (EV "affine") "x") "c1") "ToRepr" []) "Bytes" [])];
       SDef ["out1"] [(EMeth (EMeth (ESel (ESel (EV "affine") "x") "c0") "ToRepr" []) "Bytes" [])];
       SExpr (ECall "copy" [(ESlice (EV "res") None (Some (EI 48))); (ESlice (EV "out0") None None)]);
       SExpr (ECall "copy" [(ESlice (EV "res") (Some (EI 48)) None); (ESlice (EV "out1") None None)]);
       SDef ["negY"] [(EMeth (ESel (EV "affine") "y") "Copy" [])];
       SExpr (EMeth (EV "negY") "NegAssign" []);
       SIf [] (EBin ">" (EMeth (ESel (EV "affine") "y") "Cmp" [(EV "negY")]) (EI 0))
        [SOp "|" (EIdx (EV "res") (EI 0)) (EBin "<<" (EI 1) (EI 5))]
        []];
     SOp "|" (EIdx (EV "res") (EI 0)) (EBin "<<" (EI 1) (EI 7));
     SRet [(EV "res")]].
(** g2.go:293-295 *)
Definition src_G2Affine_IsInCorrectSubgroupAssumingOnCurve : func := mkFunc [("g", "G2Affine")] [("_", "bool")]
  [SRet [(EMeth (EMeth (EV "g") "MulFR" [(EV "frChar")]) "IsZero" [])]].
(** g2.go:305-307 *)
Definition src_NewG2Projective : func := mkFunc [("x", "FQ2"); ("y", "FQ2"); ("z", "FQ2")] [("_", "*G2Projective")]
  [SRet [(EUn "&" (EComp "G2Projective" [("", (EV "x")); ("", (EV "y")); ("", (EV "z"))]))]].
(** g2.go:315-320 *)
Definition src_G2Projective_String : func := mkFunc [("g", "G2Projective")] [("_", "string")]
  [SIf [] (EMeth (EV "g") "IsZero" [])
      [SRet [(ES "G2: Infinity")]]
      [];
     SRet [(EMeth (EMeth (EV "g") "ToAffine" []) "String" [])]].
(** g2.go:323-325 *)
Definition src_G2Projective_Copy : func := mkFunc [("g", "G2Projective")] [("_", "*G2Projective")]
  [SRet [(ECall "NewG2Projective" [(EMeth (ESel (EV "g") "x") "Copy" []); (EMeth (ESel (EV "g") "y") "Copy" []); (EMeth (ESel (EV "g") "z") "Copy" [])])]].
(** g2.go:328-330 *)
Definition src_G2Projective_IsZero : func := mkFunc [("g", "G2Projective")] [("_", "bool")]
  [SRet [(EMeth (ESel (EV "g") "z") "IsZero" [])]].
(** g2.go:333-362 *)
Definition src_G2Projective_Equals : func := mkFunc [("g", "G2Projective"); ("other", "*G2Projective")] [("_", "bool")]
  [SIf [] (EMeth (EV "g") "IsZero" [])
      [SRet [(EMeth (EV "other") "IsZero" [])]]
      [];
     SIf [] (EMeth (EV "other") "IsZero" [])
      [SRet [(EV "false")]]
      [];
     SDef ["z1"] [(EMeth (ESel (EV "g") "z") "Copy" [])];
     SExpr (EMeth (EV "z1") "SquareAssign" []);
     SDef ["z2"] [(EMeth (ESel (EV "other") "z") "Copy" [])];
     SExpr (EMeth (EV "z2") "SquareAssign" []);
     SDef ["tmp1"] [(EMeth (ESel (EV "g") "x") "Copy" [])];
     SExpr (EMeth (EV "tmp1") "MulAssign" [(EV "z2")]);
     SDef ["tmp2"] [(EMeth (ESel (EV "other") "x") "Copy" [])];
     SExpr (EMeth (EV "tmp2") "MulAssign" [(EV "z1")]);
     SIf [] (EUn "!" (EMeth (EV "tmp1") "Equals" [(EV "tmp2")]))
      [SRet [(EV "false")]]
      [];
     SDef ["lhs"] [(EV "z1")];
     SExpr (EMeth (EV "lhs") "MulAssign" [(ESel (EV "g") "z")]);
     SExpr (EMeth (EV "lhs") "MulAssign" [(ESel (EV "other") "y")]);
     SDef ["rhs"] [(EV "z2")];
     SExpr (EMeth (EV "rhs") "MulAssign" [(ESel (EV "other") "z")]);
     SExpr (EMeth (EV "rhs") "MulAssign" [(ESel (EV "g") "y")]);
     SRet [(EMeth (EV "lhs") "Equals" [(EV "rhs")])]].
(** g2.go:365-386 *)
Definition src_G2Projective_ToAffine : func := mkFunc [("g", "G2Projective")] [("_", "*G2Affine")]
  [SIf [] (EMeth (EV "g") "IsZero" [])
      [SRet [(EV "G2AffineZero")]]
      [SIf [] (EMeth (ESel (EV "g") "z") "Equals" [(EV "FQ2One")])
        [SRet [(ECall "NewG2Affine" [(ESel (EV "g") "x"); (ESel (EV "g") "y")])]]
        []];
     SDef ["zInv"] [(EMeth (ESel (EV "g") "z") "Copy" [])];
     SExpr (EMeth (EV "zInv") "InverseAssign" []);
     SDef ["zInvSquared"] [(EMeth (EV "zInv") "Copy" [])];
     SExpr (EMeth (EV "zInvSquared") "SquareAssign" []);
     SDef ["x"] [(EMeth (ESel (EV "g") "x") "Copy" [])];
     SExpr (EMeth (EV "x") "MulAssign" [(EV "zInvSquared")]);
     SDef ["y"] [(EMeth (ESel (EV "g") "y") "Copy" [])];
     SExpr (EMeth (EV "y") "MulAssign" [(EV "zInvSquared")]);
     SExpr (EMeth (EV "y") "MulAssign" [(EV "zInv")]);
     SRet [(ECall "NewG2Affine" [(EV "x"); (EV "y")])]].
(** g2.go:389-443 *)
Definition src_G2Projective_Double : func := mkFunc [("g", "G2Projective")] [("_", "*G2Projective")]
  [SIf [] (EMeth (EV "g") "IsZero" [])
      [SRet [(EMeth (EV "g") "Copy" [])]]
      [];
     SDef ["a"] [(EMeth (ESel (EV "g") "x") "Copy" [])];
     SExpr (EMeth (EV "a") "SquareAssign" []);
     SDef ["b"] [(EMeth (ESel (EV "g") "y") "Copy" [])];
     SExpr (EMeth (EV "b") "SquareAssign" []);
     SDef ["c"] [(EMeth (EV "b") "Copy" [])];
     SExpr (EMeth (EV "c") "SquareAssign" []);
     SDef ["d"] [(EMeth (ESel (EV "g") "x") "Copy" [])];
     SExpr (EMeth (EV "d") "AddAssign" [(EV "b")]);
     SExpr (EMeth (EV "d") "SquareAssign" []);
     SExpr (EMeth (EV "d") "SubAssign" [(EV "a")]);
     SExpr (EMeth (EV "d") "SubAssign" [(EV "c")]);
     SExpr (EMeth (EV "d") "DoubleAssign" []);
     SDef ["e"] [(EMeth (EV "a") "Copy" [])];
     SExpr (EMeth (EV "e") "DoubleAssign" []);
     SExpr (EMeth (EV "e") "AddAssign" [(EV "a")]);
     SDef ["f"] [(EMeth (EV "e") "Copy" [])];
     SExpr (EMeth (EV "f") "SquareAssign" []);
     SDef ["newZ"] [(EMeth (ESel (EV "g") "z") "Copy" [])];
     SExpr (EMeth (EV "newZ") "MulAssign" [(ESel (EV "g") "y")]);
     SExpr (EMeth (EV "newZ") "DoubleAssign" []);
     SDef ["newX"] [(EMeth (EV "f") "Copy" [])];
     SExpr (EMeth (EV "newX") "SubAssign" [(EV "d")]);
     SExpr (EMeth (EV "newX") "SubAssign" [(EV "d")]);
     SExpr (EMeth (EV "c") "DoubleAssign" []);
     SExpr (EMeth (EV "c") "DoubleAssign" []);
     SExpr (EMeth (EV "c") "DoubleAssign" []);
     SDef ["newY"] [(EMeth (EV "d") "Copy" [])];
     SExpr (EMeth (EV "newY") "SubAssign" [(EV "newX")]);
     SExpr (EMeth (EV "newY") "MulAssign" [(EV "e")]);
     SExpr (EMeth (EV "newY") "SubAssign" [(EV "c")]);
     SRet [(ECall "NewG2Projective" [(EV "newX"); (EV "newY"); (EV "newZ")])]].
(** g2.go:446-529 *)
Definition src_G2Projective_Add : func := mkFunc [("g", "G2Projective"); ("other", "*G2Projective")] [("_", "*G2Projective")]
  [SIf [] (EMeth (EV "g") "IsZero" [])
      [SRet [(EMeth (EV "other") "Copy" [])]]
      [];
     SIf [] (EMeth (EV "other") "IsZero" [])
      [SRet [(EMeth (EV "g") "Copy" [])]]
      [];
     SDef ["z1z1"] [(EMeth (ESel (EV "g") "z") "Copy" [])];
     SExpr (EMeth (EV "z1z1") "SquareAssign" []);
     SDef ["z2z2"] [(EMeth (ESel (EV "other") "z") "Copy" [])];
     SExpr (EMeth (EV "z2z2") "SquareAssign" []);
     SDef ["u1"] [(EMeth (ESel (EV "g") "x") "Copy" [])];
     SExpr (EMeth (EV "u1") "MulAssign" [(EV "z2z2")]);
     SDef ["u2"] [(EMeth (ESel (EV "other") "x") "Copy" [])];
     SExpr (EMeth (EV "u2") "MulAssign" [(EV "z1z1")]);
     SDef ["s1"] [(EMeth (ESel (EV "g") "y") "Copy" [])];
     SExpr (EMeth (EV "s1") "MulAssign" [(ESel (EV "other") "z")]);
     SExpr (EMeth (EV "s1") "MulAssign" [(EV "z2z2")]);
     SDef ["s2"] [(EMeth (ESel (EV "other") "y") "Copy" [])];
     SExpr (EMeth (EV "s2") "MulAssign" [(ESel (EV "g") "z")]);
     SExpr (EMeth (EV "s2") "MulAssign" [(EV "z1z1")]);
     SIf [] (EBin "&&" (EMeth (EV "u1") "Equals" [(EV "u2")]) (EMeth (EV "s1") "Equals" [(EV "s2")]))
      [SRet [(EMeth (EV "g") "Double" [])]]
      [];
     SDef ["h"] [(EMeth (EV "u2") "Copy" [])];
     SExpr (EMeth (EV "h") "SubAssign" [(EV "u1")]);
     SDef ["i"] [(EMeth (EV "h") "Copy" [])];
     SExpr (EMeth (EV "i") "DoubleAssign" []);
     SExpr (EMeth (EV "i") "SquareAssign" []);
     SDef ["j"] [(EMeth (EV "h") "Copy" [])];
     SExpr (EMeth (EV "j") "MulAssign" [(EV "i")]);
     SDef ["r"] [(EMeth (EV "s2") "Copy" [])];
     SExpr (EMeth (EV "r") "SubAssign" [(EV "s1")]);
     SExpr (EMeth (EV "r") "DoubleAssign" []);
     SExpr (EMeth (EV "u1") "MulAssign" [(EV "i")]);
     SDef ["newX"] [(EMeth (EV "r") "Copy" [])];
     SExpr (EMeth (EV "newX") "SquareAssign" []);
     SExpr (EMeth (EV "newX") "SubAssign" [(EV "j")]);
     SExpr (EMeth (EV "newX") "SubAssign" [(EV "u1")]);
     SExpr (EMeth (EV "newX") "SubAssign" [(EV "u1")]);
     SExpr (EMeth (EV "u1") "SubAssign" [(EV "newX")]);
     SExpr (EMeth (EV "u1") "MulAssign" [(EV "r")]);
     SExpr (EMeth (EV "s1") "MulAssign" [(EV "j")]);
     SExpr (EMeth (EV "s1") "DoubleAssign" []);
     SExpr (EMeth (EV "u1") "SubAssign" [(EV "s1")]);
     SDef ["newZ"] [(EMeth (ESel (EV "g") "z") "Copy" [])];
     SExpr (EMeth (EV "newZ") "AddAssign" [(ESel (EV "other") "z")]);
     SExpr (EMeth (EV "newZ") "SquareAssign" []);
     SExpr (EMeth (EV "newZ") "SubAssign" [(EV "z1z1")]);
     SExpr (EMeth (EV "newZ") "SubAssign" [(EV "z2z2")]);
     SExpr (EMeth (EV "newZ") "MulAssign" [(EV "h")]);
     SRet [(ECall "NewG2Projective" [(EV "newX"); (EV "u1"); (EV "newZ")])]].
(** g2.go:532-606 *)
Definition src_G2Projective_AddAffine : func := mkFunc [("g", "G2Projective"); ("other", "*G2Affine")] [("_", "*G2Projective")]
  [SIf [] (EMeth (EV "g") "IsZero" [])
      [SRet [(EMeth (EV "other") "ToProjective" [])]]
      [];
     SIf [] (EMeth (EV "other") "IsZero" [])
      [SRet [(EMeth (EV "g") "Copy" [])]]
      [];
     SDef ["z1z1"] [(EMeth (ESel (EV "g") "z") "Copy" [])];
     SExpr (EMeth (EV "z1z1") "SquareAssign" []);
     SDef ["u2"] [(EMeth (ESel (EV "other") "x") "Copy" [])];
     SExpr (EMeth (EV "u2") "MulAssign" [(EV "z1z1")]);
     SDef ["s2"] [(EMeth (ESel (EV "other") "y") "Copy" [])];
     SExpr (EMeth (EV "s2") "MulAssign" [(ESel (EV "g") "z")]);
     SExpr (EMeth (EV "s2") "MulAssign" [(EV "z1z1")]);
     SIf [] (EBin "&&" (EMeth (ESel (EV "g") "x") "Equals" [(EV "u2")]) (EMeth (ESel (EV "g") "y") "Equals" [(EV "s2")]))
      [SRet [(EMeth (EV "g") "Double" [])]]
      [];
     SExpr (EMeth (EV "u2") "SubAssign" [(ESel (EV "g") "x")]);
     SDef ["hh"] [(EMeth (EV "u2") "Copy" [])];
     SExpr (EMeth (EV "hh") "SquareAssign" []);
     SDef ["i"] [(EMeth (EV "hh") "Copy" [])];
     SExpr (EMeth (EV "i") "DoubleAssign" []);
     SExpr (EMeth (EV "i") "DoubleAssign" []);
     SDef ["j"] [(EMeth (EV "u2") "Copy" [])];
     SExpr (EMeth (EV "j") "MulAssign" [(EV "i")]);
     SExpr (EMeth (EV "s2") "SubAssign" [(ESel (EV "g") "y")]);
     SExpr (EMeth (EV "s2") "DoubleAssign" []);
     SDef ["v"] [(EMeth (ESel (EV "g") "x") "Copy" [])];
     SExpr (EMeth (EV "v") "MulAssign" [(EV "i")]);
     SDef ["newX"] [(EMeth (EV "s2") "Copy" [])];
     SExpr (EMeth (EV "newX") "SquareAssign" []);
     SExpr (EMeth (EV "newX") "SubAssign" [(EV "j")]);
     SExpr (EMeth (EV "newX") "SubAssign" [(EV "v")]);
     SExpr (EMeth (EV "newX") "SubAssign" [(EV "v")]);
     SDef ["newY"] [(EMeth (EV "v") "Copy" [])];
     SExpr (EMeth (EV "newY") "SubAssign" [(EV "newX")]);
     SExpr (EMeth (EV "newY") "MulAssign" [(EV "s2")]);
     SDef ["i0"] [(EMeth (ESel (EV "g") "y") "Copy" [])];
     SExpr (EMeth (EV "i0") "MulAssign" [(EV "j")]);
     SExpr (EMeth (EV "i0") "DoubleAssign" []);
     SExpr (EMeth (EV "newY") "SubAssign" [(EV "i0")]);
     SDef ["newZ"] [(EMeth (ESel (EV "g") "z") "Copy" [])];
     SExpr (EMeth (EV "newZ") "AddAssign" [(EV "u2")]);
     SExpr (EMeth (EV "newZ") "SquareAssign" []);
     SExpr (EMeth (EV "newZ") "SubAssign" [(EV "z1z1")]);
     SExpr (EMeth (EV "newZ") "SubAssign" [(EV "hh")]);
     SRet [(ECall "NewG2Projective" [(EV "newX"); (EV "newY"); (EV "newZ")])]].
(** g2.go:609-619 *)
Definition src_G2Projective_Mul : func := mkFunc [("g", "G2Projective"); ("b", "FQRepr")] [("_", "*G2Projective")]
  [SDef ["res"] [(EMeth (EV "G2ProjectiveZero") "Copy" [])];
     SFor [SDef ["i"] [(ECall "uint" [(EI 0)])]] (Some (EBin "<" (EV "i") (ECall "uint" [(EMeth (EV "b") "BitLen" [])]))) [SOp "+" (EV "i") (EI 1)]
      [SDef ["o"] [(EMeth (EV "b") "Bit" [(EBin "-" (EBin "-" (EMeth (EV "b") "BitLen" []) (EV "i")) (EI 1))])];
       SAssign [(EV "res")] [(EMeth (EV "res") "Double" [])];
       SIf [] (EV "o")
        [SAssign [(EV "res")] [(EMeth (EV "res") "Add" [(EUn "&" (EV "g"))])]]
        []];
     SRet [(EV "res")]].
(** g2.go:622-632 *)
Definition src_G2Projective_MulFR : func := mkFunc [("g", "G2Projective"); ("b", "*FRRepr")] [("_", "*G2Projective")]
  [SDef ["res"] [(EMeth (EV "G2ProjectiveZero") "Copy" [])];
     SFor [SDef ["i"] [(ECall "uint" [(EI 0)])]] (Some (EBin "<" (EV "i") (ECall "uint" [(EMeth (EV "b") "BitLen" [])]))) [SOp "+" (EV "i") (EI 1)]
      [SDef ["o"] [(EMeth (EV "b") "Bit" [(EBin "-" (EBin "-" (EMeth (EV "b") "BitLen" []) (EV "i")) (EI 1))])];
       SAssign [(EV "res")] [(EMeth (EV "res") "Double" [])];
       SIf [] (EV "o")
        [SAssign [(EV "res")] [(EMeth (EV "res") "Add" [(EUn "&" (EV "g"))])]]
        []];
     SRet [(EV "res")]].
(** g2.go:645-647 *)
Definition src_G2Prepared_IsZero : func := mkFunc [("g", "G2Prepared")] [("_", "bool")]
  [SRet [(ESel (EV "g") "infinity")]].
(** g2.go:650-801 *)
Definition src_G2AffineToPrepared : func := mkFunc [("q", "*G2Affine")] [("_", "*G2Prepared")]
  [SIf [] (EMeth (EV "q") "IsZero" [])
      [SRet [(EUn "&" (EComp "G2Prepared" [("infinity", (EV "true"))]))]]
      [];
     SDef ["doublingStep"] [(EFunc [("r", "*G2Projective")] [("_", "FQ2"); ("_", "FQ2"); ("_", "FQ2")] [SDef ["tmp0"] [(EMeth (ESel (EV "r") "x") "Copy" [])];
       SExpr (EMeth (EV "tmp0") "SquareAssign" []);
       SDef ["tmp1"] [(EMeth (ESel (EV "r") "y") "Copy" [])];
       SExpr (EMeth (EV "tmp1") "SquareAssign" []);
       SDef ["tmp2"] [(EMeth (EV "tmp1") "Copy" [])];
       SExpr (EMeth (EV "tmp2") "SquareAssign" []);
       SDef ["tmp3"] [(EMeth (EV "tmp1") "Copy" [])];
       SExpr (EMeth (EV "tmp3") "AddAssign" [(ESel (EV "r") "x")]);
       SExpr (EMeth (EV "tmp3") "SquareAssign" []);
       SExpr (EMeth (EV "tmp3") "SubAssign" [(EV "tmp0")]);
       SExpr (EMeth (EV "tmp3") "SubAssign" [(EV "tmp2")]);
       SExpr (EMeth (EV "tmp3") "DoubleAssign" []);
       SDef ["tmp4"] [(EMeth (EV "tmp0") "Copy" [])];
       SExpr (EMeth (EV "tmp4") "DoubleAssign" []);
       SExpr (EMeth (EV "tmp4") "AddAssign" [(EV "tmp0")]);
       SDef ["tmp6"] [(EMeth (ESel (EV "r") "x") "Copy" [])];
       SExpr (EMeth (EV "tmp6") "AddAssign" [(EV "tmp4")]);
       SDef ["tmp5"] [(EMeth (EV "tmp4") "Copy" [])];
       SExpr (EMeth (EV "tmp5") "SquareAssign" []);
       SDef ["zSquared"] [(EMeth (ESel (EV "r") "z") "Copy" [])];
       SExpr (EMeth (EV "zSquared") "SquareAssign" []);
       SAssign [(ESel (EV "r") "x")] [(EMeth (EV "tmp5") "Copy" [])];
       SExpr (EMeth (ESel (EV "r") "x") "SubAssign" [(EV "tmp3")]);
       SExpr (EMeth (ESel (EV "r") "x") "SubAssign" [(EV "tmp3")]);
       SAssign [(ESel (EV "r") "z")] [(EMeth (ESel (EV "r") "z") "Copy" [])];
       SExpr (EMeth (ESel (EV "r") "z") "AddAssign" [(ESel (EV "r") "y")]);
       SExpr (EMeth (ESel (EV "r") "z") "SquareAssign" []);
       SExpr (EMeth (ESel (EV "r") "z") "SubAssign" [(EV "tmp1")]);
       SExpr (EMeth (ESel (EV "r") "z") "SubAssign" [(EV "zSquared")]);
       SAssign [(ESel (EV "r") "y")] [(EMeth (EV "tmp3") "Copy" [])];
       SExpr (EMeth (ESel (EV "r") "y") "SubAssign" [(ESel (EV "r") "x")]);
       SExpr (EMeth (ESel (EV "r") "y") "MulAssign" [(EV "tmp4")]);
       SExpr (EMeth (EV "tmp2") "DoubleAssign" []);
       SExpr (EMeth (EV "tmp2") "DoubleAssign" []);
       SExpr (EMeth (EV "tmp2") "DoubleAssign" []);
       SAssign [(ESel (EV "r") "y")] [(EMeth (ESel (EV "r") "y") "Copy" [])];
       SExpr (EMeth (ESel (EV "r") "y") "SubAssign" [(EV "tmp2")]);
       SAssign [(EV "tmp3")] [(EMeth (EV "tmp4") "Copy" [])];
       SExpr (EMeth (EV "tmp3") "MulAssign" [(EV "zSquared")]);
       SExpr (EMeth (EV "tmp3") "DoubleAssign" []);
       SExpr (EMeth (EV "tmp3") "NegAssign" []);
       SAssign [(EV "tmp6")] [(EMeth (EV "tmp6") "Copy" [])];
       SExpr (EMeth (EV "tmp6") "SquareAssign" []);
       SExpr (EMeth (EV "tmp6") "SubAssign" [(EV "tmp0")]);
       SExpr (EMeth (EV "tmp6") "SubAssign" [(EV "tmp5")]);
       SExpr (EMeth (EV "tmp1") "DoubleAssign" []);
       SExpr (EMeth (EV "tmp1") "DoubleAssign" []);
       SExpr (EMeth (EV "tmp6") "SubAssign" [(EV "tmp1")]);
       SAssign [(EV "tmp0")] [(EMeth (ESel (EV "r") "z") "Copy" [])];
       SExpr (EMeth (EV "tmp0") "MulAssign" [(EV "zSquared")]);
       SExpr (EMeth (EV "tmp0") "DoubleAssign" []);
       SRet [(EV "tmp0"); (EV "tmp3"); (EV "tmp6")]])];
     SDef ["additionStep"] [(EFunc [("r", "*G2Projective"); ("q", "*G2Affine")] [("_", "FQ2"); ("_", "FQ2"); ("_", "FQ2")] [SDef ["zSquared"] [(EMeth (ESel (EV "r") "z") "Copy" [])];
       SExpr (EMeth (EV "zSquared") "SquareAssign" []);
       SDef ["ySquared"] [(EMeth (ESel (EV "q") "y") "Copy" [])];
       SExpr (EMeth (EV "ySquared") "SquareAssign" []);
       SDef ["t0"] [(EMeth (EV "zSquared") "Copy" [])];
       SExpr (EMeth (EV "t0") "MulAssign" [(ESel (EV "q") "x")]);
       SDef ["t1"] [(EMeth (ESel (EV "q") "y") "Copy" [])];
       SExpr (EMeth (EV "t1") "AddAssign" [(ESel (EV "r") "z")]);
       SExpr (EMeth (EV "t1") "SquareAssign" []);
       SExpr (EMeth (EV "t1") "SubAssign" [(EV "ySquared")]);
       SExpr (EMeth (EV "t1") "SubAssign" [(EV "zSquared")]);
       SExpr (EMeth (EV "t1") "MulAssign" [(EV "zSquared")]);
       SDef ["t2"] [(EMeth (EV "t0") "Copy" [])];
       SExpr (EMeth (EV "t2") "SubAssign" [(ESel (EV "r") "x")]);
       SDef ["t3"] [(EMeth (EV "t2") "Copy" [])];
       SExpr (EMeth (EV "t3") "SquareAssign" []);
       SDef ["t4"] [(EMeth (EV "t3") "Copy" [])];
       SExpr (EMeth (EV "t4") "DoubleAssign" []);
       SExpr (EMeth (EV "t4") "DoubleAssign" []);
       SDef ["t5"] [(EMeth (EV "t4") "Copy" [])];
       SExpr (EMeth (EV "t5") "MulAssign" [(EV "t2")]);
       SDef ["t6"] [(EMeth (EV "t1") "Copy" [])];
       SExpr (EMeth (EV "t6") "SubAssign" [(ESel (EV "r") "y")]);
       SExpr (EMeth (EV "t6") "SubAssign" [(ESel (EV "r") "y")]);
       SDef ["t9"] [(EMeth (EV "t6") "Copy" [])];
       SExpr (EMeth (EV "t9") "MulAssign" [(ESel (EV "q") "x")]);
       SDef ["t7"] [(EMeth (EV "t4") "Copy" [])];
       SExpr (EMeth (EV "t7") "MulAssign" [(ESel (EV "r") "x")]);
       SAssign [(ESel (EV "r") "x")] [(EMeth (EV "t6") "Copy" [])];
       SExpr (EMeth (ESel (EV "r") "x") "SquareAssign" []);
       SExpr (EMeth (ESel (EV "r") "x") "SubAssign" [(EV "t5")]);
       SExpr (EMeth (ESel (EV "r") "x") "SubAssign" [(EV "t7")]);
       SExpr (EMeth (ESel (EV "r") "x") "SubAssign" [(EV "t7")]);
       SAssign [(ESel (EV "r") "z")] [(EMeth (ESel (EV "r") "z") "Copy" [])];
       SExpr (EMeth (ESel (EV "r") "z") "AddAssign" [(EV "t2")]);
       SExpr (EMeth (ESel (EV "r") "z") "SquareAssign" []);
       SExpr (EMeth (ESel (EV "r") "z") "SubAssign" [(EV "zSquared")]);
       SExpr (EMeth (ESel (EV "r") "z") "SubAssign" [(EV "t3")]);
       SDef ["t10"] [(EMeth (ESel (EV "q") "y") "Copy" [])];
       SExpr (EMeth (EV "t10") "AddAssign" [(ESel (EV "r") "z")]);
       SDef ["t8"] [(EMeth (EV "t7") "Copy" [])];
       SExpr (EMeth (EV "t8") "SubAssign" [(ESel (EV "r") "x")]);
       SExpr (EMeth (EV "t8") "MulAssign" [(EV "t6")]);
       SAssign [(EV "t0")] [(EMeth (ESel (EV "r") "y") "Copy" [])];
       SExpr (EMeth (EV "t0") "MulAssign" [(EV "t5")]);
       SExpr (EMeth (EV "t0") "DoubleAssign" []);
       SAssign [(ESel (EV "r") "y")] [(EMeth (EV "t8") "Copy" [])];
       SExpr (EMeth (ESel (EV "r") "y") "SubAssign" [(EV "t0")]);
       SExpr (EMeth (EV "t10") "SquareAssign" []);
       SExpr (EMeth (EV "t10") "SubAssign" [(EV "ySquared")]);
       SAssign [(EV "zSquared")] [(EMeth (ESel (EV "r") "z") "Copy" [])];
       SExpr (EMeth (EV "zSquared") "SquareAssign" []);
       SExpr (EMeth (EV "t10") "SubAssign" [(EV "zSquared")]);
       SExpr (EMeth (EV "t9") "DoubleAssign" []);
       SExpr (EMeth (EV "t9") "SubAssign" [(EV "t10")]);
       SAssign [(EV "t10")] [(EMeth (ESel (EV "r") "z") "Copy" [])];
       SExpr (EMeth (EV "t10") "DoubleAssign" []);
       SExpr (EMeth (EV "t6") "NegAssign" []);
       SExpr (EMeth (EV "t6") "DoubleAssign" []);
       SRet [(EV "t10"); (EV "t6"); (EV "t9")]])];
     SVar "coeffs" "[][3]FQ2";
     SDef ["r"] [(EMeth (EV "q") "ToProjective" [])];
     SDef ["foundOne"] [(EV "false")];
     SDef ["blsXRsh1"] [(EMeth (EV "blsX") "Copy" [])];
     SExpr (EMeth (EV "blsXRsh1") "Rsh" [(EI 1)]);
     SFor [SDef ["i"] [(ECall "uint" [(EI 0)])]] (Some (EBin "<=" (EV "i") (EMeth (EV "blsXRsh1") "BitLen" []))) [SOp "+" (EV "i") (EI 1)]
      [SDef ["set"] [(EMeth (EV "blsXRsh1") "Bit" [(EBin "-" (EMeth (EV "blsXRsh1") "BitLen" []) (EV "i"))])];
       SIf [] (EUn "!" (EV "foundOne"))
        [SAssign [(EV "foundOne")] [(EV "set")];
         SContinue]
        [];
       SDef ["o0"; "o1"; "o2"] [(ECall "doublingStep" [(EV "r")])];
       SAssign [(EV "coeffs")] [(ECall "append" [(EV "coeffs"); (EComp "[3]FQ2" [("", (EV "o0")); ("", (EV "o1")); ("", (EV "o2"))])])];
       SIf [] (EV "set")
        [SDef ["o0"; "o1"; "o2"] [(ECall "additionStep" [(EV "r"); (EV "q")])];
         SAssign [(EV "coeffs")] [(ECall "append" [(EV "coeffs"); (EComp "[3]FQ2" [("", (EV "o0")); ("", (EV "o1")); ("", (EV "o2"))])])]]
        []];
     SDef ["o0"; "o1"; "o2"] [(ECall "doublingStep" [(EV "r")])];
     SAssign [(EV "coeffs")] [(ECall "append" [(EV "coeffs"); (EComp "[3]FQ2" [("", (EV "o0")); ("", (EV "o1")); ("", (EV "o2"))])])];
     SRet [(EUn "&" (EComp "G2Prepared" [("", (EV "coeffs")); ("", (EV "false"))]))]].
(** g2.go:804-828 *)
Definition src_RandG2 : func := mkFunc [("r", "io.Reader")] [("_", "*G2Projective"); ("_", "error")]
  [SFor [] None []
      [SDef ["b"] [(ECall "make" [(ET "[]byte"); (EI 1)])];
       SDef ["_"; "err"] [(EMeth (EV "r") "Read" [(EV "b")])];
       SIf [] (EBin "!=" (EV "err") (EV "nil"))
        [SRet [(EV "nil"); (EV "err")]]
        [];
       SDef ["greatest"] [(EV "false")];
       SIf [] (EBin "==" (EBin "%" (EIdx (EV "b") (EI 0)) (EI 2)) (EI 0))
        [SAssign [(EV "greatest")] [(EV "true")]]
        [];
       SDef ["f"; "err"] [(ECall "RandFQ2" [(EV "r")])];
       SIf [] (EBin "!=" (EV "err") (EV "nil"))
        [SRet [(EV "nil"); (EV "err")]]
        [];
       SDef ["p"; "err"] [(ECall "GetG2PointFromX" [(EV "f"); (EV "greatest")])];
       SIf [] (EBin "!=" (EV "err") (EV "nil"))
        [SContinue]
        [];
       SDef ["p1"] [(EMeth (EV "p") "ScaleByCofactor" [])];
       SIf [] (EUn "!" (EMeth (EV "p") "IsZero" []))
        [SRet [(EV "p1"); (EV "nil")]]
        []]].
(** g2.go:836-881 *)
Definition src_SWEncodeG2 : func := mkFunc [("t", "FQ2")] [("_", "*G2Affine")]
  [SIf [] (EMeth (EV "t") "IsZero" [])
      [SRet [(EMeth (EV "G2AffineZero") "Copy" [])]]
      [];
     SDef ["parity"] [(EMeth (EV "t") "Parity" [])];
     SDef ["w"] [(EMeth (EV "t") "Copy" [])];
     SExpr (EMeth (EV "w") "SquareAssign" []);
     SExpr (EMeth (EV "w") "AddAssign" [(EV "BCoeffFQ2")]);
     SExpr (EMeth (EV "w") "AddAssign" [(EV "FQ2One")]);
     SIf [] (EMeth (EV "w") "IsZero" [])
      [SDef ["ret"] [(EMeth (EV "G2AffineOne") "Copy" [])];
       SIf [] (EV "parity")
        [SExpr (EMeth (EV "ret") "NegAssign" [])]
        [];
       SRet [(EV "ret")]]
      [];
     SExpr (EMeth (EV "w") "InverseAssign" []);
     SExpr (EMeth (EV "w") "MulAssign" [(EV "swencSqrtNegThreeFQ2")]);
     SExpr (EMeth (EV "w") "MulAssign" [(EV "t")]);
     SDef ["x1"] [(EMeth (EV "w") "Copy" [])];
     SExpr (EMeth (EV "x1") "MulAssign" [(EV "t")]);
     SExpr (EMeth (EV "x1") "NegAssign" []);
     SExpr (EMeth (EV "x1") "AddAssign" [(EV "swencSqrtNegThreeMinusOneDivTwoFQ2")]);
     SIf [SDef ["p"; "err"] [(ECall "GetG2PointFromX" [(EV "x1"); (EV "parity")])]] (EBin "==" (EV "err") (EV "nil"))
      [SRet [(EV "p")]]
      [];
     SDef ["x2"] [(EMeth (EV "x1") "Copy" [])];
     SExpr (EMeth (EV "x2") "NegAssign" []);
     SExpr (EMeth (EV "x2") "SubAssign" [(EV "FQ2One")]);
     SIf [SDef ["p"; "err"] [(ECall "GetG2PointFromX" [(EV "x2"); (EV "parity")])]] (EBin "==" (EV "err") (EV "nil"))
      [SRet [(EV "p")]]
      [];
     SDef ["x3"] [(EMeth (EV "w") "Copy" [])];
     SExpr (EMeth (EV "x3") "SquareAssign" []);
     SExpr (EMeth (EV "x3") "InverseAssign" []);
     SExpr (EMeth (EV "x3") "AddAssign" [(EV "FQ2One")]);
     SDef ["point"; "_"] [(ECall "GetG2PointFromX" [(EV "x3"); (EV "parity")])];
     SRet [(EV "point")]].
(** g2.go:916-931 *)
Definition src_signFQ2 : func := mkFunc [("f", "FQ2")] [("_", "int")]
  [SDef ["thresh"] [(ECall "FQReprToFQ" [(EV "qMinus1Over2")])];
     SIf [] (EBin ">" (EMeth (ESel (EV "f") "c1") "Cmp" [(EV "thresh")]) (EI 0))
      [SRet [(EUn "-" (EI 1))]]
      [];
     SIf [] (EBin ">" (EMeth (ESel (EV "f") "c1") "Cmp" [(EV "FQZero")]) (EI 0))
      [SRet [(EI 1)]]
      [];
     SIf [] (EBin ">" (EMeth (ESel (EV "f") "c0") "Cmp" [(EV "thresh")]) (EI 0))
      [SRet [(EUn "-" (EI 1))]]
      [];
     SIf [] (EBin ">" (EMeth (ESel (EV "f") "c0") "Cmp" [(EV "FQZero")]) (EI 0))
      [SRet [(EI 1)]]
      [];
     SRet [(EI 1)]].
(** g2.go:933-1031 *)
Definition src_OptimizedSWU2MapHelper : func := mkFunc [("t", "FQ2")] [("_", "*G2Affine")]
  [SDef ["numDenCommon"] [(EMeth (EV "fq2nqr") "Copy" [])];
     SExpr (EMeth (EV "numDenCommon") "SquareAssign" []);
     SDef ["tSquared"] [(EMeth (EV "t") "Copy" [])];
     SExpr (EMeth (EV "tSquared") "SquareAssign" []);
     SDef ["t4"] [(EMeth (EV "tSquared") "Copy" [])];
     SExpr (EMeth (EV "t4") "SquareAssign" []);
     SExpr (EMeth (EV "numDenCommon") "MulAssign" [(EV "t4")]);
     SDef ["negOneTimesTSquared"] [(EMeth (EV "fq2nqr") "Copy" [])];
     SExpr (EMeth (EV "negOneTimesTSquared") "MulAssign" [(EV "tSquared")]);
     SExpr (EMeth (EV "numDenCommon") "AddAssign" [(EV "negOneTimesTSquared")]);
     SVar "x0" "FQ2";
     SIf [] (EMeth (EV "numDenCommon") "Equals" [(EV "FQ2Zero")])
      [SDef ["xiA"] [(EMeth (EV "fq2nqr") "Copy" [])];
       SExpr (EMeth (EV "xiA") "MulAssign" [(EV "ell2pA")]);
       SAssign [(EV "x0")] [(EMeth (EV "ell2pB") "Copy" [])];
       SExpr (EMeth (EV "x0") "DivAssign" [(EV "xiA")])]
      [SDef ["ell2paTimesCommon"] [(EMeth (EV "ell2pA") "Copy" [])];
       SExpr (EMeth (EV "ell2paTimesCommon") "MulAssign" [(EV "numDenCommon")]);
       SDef ["negEll2pb"] [(EMeth (EV "ell2pB") "Copy" [])];
       SExpr (EMeth (EV "negEll2pb") "NegAssign" []);
       SExpr (EMeth (EV "numDenCommon") "AddAssign" [(EV "FQ2One")]);
       SExpr (EMeth (EV "negEll2pb") "MulAssign" [(EV "numDenCommon")]);
       SAssign [(EV "x0")] [(EV "negEll2pb")];
       SExpr (EMeth (EV "x0") "DivAssign" [(EV "ell2paTimesCommon")])];
     SDef ["x0Cubed"] [(EMeth (EV "x0") "Copy" [])];
     SExpr (EMeth (EV "x0Cubed") "SquareAssign" []);
     SExpr (EMeth (EV "x0Cubed") "MulAssign" [(EV "x0")]);
     SDef ["ellPAX0"] [(EMeth (EV "ell2pA") "Copy" [])];
     SExpr (EMeth (EV "ellPAX0") "MulAssign" [(EV "x0")]);
     SDef ["gx0"] [(EV "x0Cubed")];
     SExpr (EMeth (EV "gx0") "AddAssign" [(EV "ellPAX0")]);
     SExpr (EMeth (EV "gx0") "AddAssign" [(EV "ell2pB")]);
     SDef ["sqrtGX0"; "found"] [(EMeth (EV "gx0") "Sqrt" [])];
     SIf [] (EV "found")
      [SDef ["y0Squared"] [(EMeth (EV "sqrtGX0") "Copy" [])];
       SExpr (EMeth (EV "y0Squared") "SquareAssign" []);
       SIf [] (EMeth (EV "y0Squared") "Equals" [(EV "gx0")])
        [SDef ["signT"] [(ECall "signFQ2" [(EV "t")])];
         SDef ["signYT"] [(ECall "signFQ2" [(EV "sqrtGX0")])];
         SIf [] (EBin "!=" (EV "signT") (EV "signYT"))
          [SExpr (EMeth (EV "sqrtGX0") "NegAssign" [])]
          [];
         SRet [(ECall "NewG2Affine" [(EV "x0"); (EV "sqrtGX0")])]]
        []]
      [];
     SDef ["tCubed"] [(EMeth (EV "tSquared") "Copy" [])];
     SExpr (EMeth (EV "tCubed") "MulAssign" [(EV "t")]);
     SDef ["t6"] [(EMeth (EV "tCubed") "Copy" [])];
     SExpr (EMeth (EV "t6") "SquareAssign" []);
     SDef ["x1"] [(EMeth (EV "fq2nqr") "Copy" [])];
     SExpr (EMeth (EV "x1") "MulAssign" [(EV "tSquared")]);
     SExpr (EMeth (EV "x1") "MulAssign" [(EV "x0")]);
     SDef ["gx1"] [(EMeth (EV "fq2nqr") "Copy" [])];
     SExpr (EMeth (EV "gx1") "SquareAssign" []);
     SExpr (EMeth (EV "gx1") "MulAssign" [(EV "fq2nqr")]);
     SExpr (EMeth (EV "gx1") "MulAssign" [(EV "t6")]);
     SExpr (EMeth (EV "gx1") "MulAssign" [(EV "gx0")]);
     SDef ["y1"; "found"] [(EMeth (EV "gx1") "Sqrt" [])];
     SIf [] (EUn "!" (EV "found"))
      [SExpr (ECall "panic" [(ES "This should never happen!")])]
      [];
     SDef ["y12"] [(EMeth (EV "y1") "Copy" [])];
     SExpr (EMeth (EV "y12") "SquareAssign" []);
     SIf [] (EMeth (EV "y12") "Equals" [(EV "gx1")])
      [SDef ["signT"] [(ECall "signFQ2" [(EV "t")])];
       SDef ["signYT"] [(ECall "signFQ2" [(EV "y1")])];
       SIf [] (EBin "!=" (EV "signT") (EV "signYT"))
        [SExpr (EMeth (EV "y1") "NegAssign" [])]
        [];
       SRet [(ECall "NewG2Affine" [(EV "x1"); (EV "y1")])]]
      [];
     SRet [(EV "nil")]].
(** g2.go:1034-1038 *)
Definition src_hashFunc : func := mkFunc [("in", "[]byte")] [("_", "[]byte")]
  [SDef ["h"] [(ECall "sha256.New" [])];
     SExpr (EMeth (EV "h") "Write" [(EV "in")]);
     SRet [(EMeth (EV "h") "Sum" [(EV "nil")])]].
(** g2.go:1041-1085 *)
Definition src_HashG2WithDomain : func := mkFunc [("messageHash", "[32]byte"); ("domain", "[8]byte")] [("_", "*G2Projective")]
  [SDef ["xReBytes"] [(ECall "make" [(ET "[]byte"); (EI 0); (EBin "+" (EBin "+" (EI 32) (EI 8)) (EI 1))])];
     SAssign [(EV "xReBytes")] [(ECallSpread "append" [(EV "xReBytes"); (ESlice (EV "messageHash") None None)])];
     SAssign [(EV "xReBytes")] [(ECallSpread "append" [(EV "xReBytes"); (ESlice (EV "domain") None None)])];
     SAssign [(EV "xReBytes")] [(ECall "append" [(EV "xReBytes"); (EI 1)])];
     SDef ["xImBytes"] [(ECall "make" [(ET "[]byte"); (EI 0); (EBin "+" (EBin "+" (EI 32) (EI 8)) (EI 1))])];
     SAssign [(EV "xImBytes")] [(ECallSpread "append" [(EV "xImBytes"); (ESlice (EV "messageHash") None None)])];
     SAssign [(EV "xImBytes")] [(ECallSpread "append" [(EV "xImBytes"); (ESlice (EV "domain") None None)])];
     SAssign [(EV "xImBytes")] [(ECall "append" [(EV "xImBytes"); (EI 2)])];
     SDef ["xRe"] [(ECall "new" [(ET "big.Int")])];
     SExpr (EMeth (EV "xRe") "SetBytes" [(ECall "hashFunc" [(EV "xReBytes")])]);
     SDef ["xIm"] [(ECall "new" [(ET "big.Int")])];
     SExpr (EMeth (EV "xIm") "SetBytes" [(ECall "hashFunc" [(EV "xImBytes")])]);
     SDef ["xReFQ"; "_"] [(ECall "FQReprFromBigInt" [(EV "xRe")])];
     SDef ["xImFQ"; "_"] [(ECall "FQReprFromBigInt" [(EV "xIm")])];
     SDef ["x0"] [(ECall "NewFQ2" [(ECall "FQReprToFQ" [(EV "xReFQ")]); (ECall "FQReprToFQ" [(EV "xImFQ")])])];
     SFor [] None []
      [SDef ["gx0"] [(EMeth (EV "x0") "Copy" [])];
       SExpr (EMeth (EV "gx0") "SquareAssign" []);
       SExpr (EMeth (EV "gx0") "MulAssign" [(EV "x0")]);
       SExpr (EMeth (EV "gx0") "AddAssign" [(EV "BCoeffFQ2")]);
       SDef ["y0"; "found"] [(EMeth (EV "gx0") "Sqrt" [])];
       SIf [] (EV "found")
        [SIf [] (EUn "!" (EMeth (EV "y0") "Parity" []))
          [SExpr (EMeth (EV "y0") "NegAssign" [])]
          [];
         SRet [(EMeth (ECall "NewG2Affine" [(EV "x0"); (EV "y0")]) "ScaleByCofactor" [])]]
        [];
       SExpr (EMeth (EV "x0") "AddAssign" [(EV "FQ2One")])]].
(** pairing.go:16-75 *)
Definition src_MillerLoop : func := mkFunc [("items", "[]MillerLoopItem")] [("_", "*FQ12")]
  [SDef ["pairs"] [(ECall "make" [(ET "[]pairingItem"); (ECall "len" [(EV "items")])])];
     SRange "i" "item" (EV "items")
      [SIf [] (EBin "&&" (EUn "!" (EMeth (ESel (EV "item") "P") "IsZero" [])) (EUn "!" (EMeth (ESel (EV "item") "Q") "IsZero" [])))
        [SAssign [(EIdx (EV "pairs") (EV "i"))] [(EComp "pairingItem" [("p", (EMeth (ESel (EV "item") "P") "Copy" [])); ("q", (ESel (ESel (EV "item") "Q") "coeffs")); ("qIndex", (EI 0))])]]
        []];
     SDef ["ell"] [(EFunc [("f", "*FQ12"); ("coeffs", "[3]FQ2"); ("p", "*G1Affine")] [] [SDef ["c0"] [(EIdx (EV "coeffs") (EI 0))];
       SDef ["c1"] [(EIdx (EV "coeffs") (EI 1))];
       SExpr (EMeth (ESel (EV "c0") "c0") "MulAssign" [(ESel (EV "p") "y")]);
       SExpr (EMeth (ESel (EV "c0") "c1") "MulAssign" [(ESel (EV "p") "y")]);
       SExpr (EMeth (ESel (EV "c1") "c0") "MulAssign" [(ESel (EV "p") "x")]);
       SExpr (EMeth (ESel (EV "c1") "c1") "MulAssign" [(ESel (EV "p") "x")]);
       SExpr (EMeth (EV "f") "MulBy014Assign" [(EIdx (EV "coeffs") (EI 2)); (EV "c1"); (EV "c0")])])];
     SDef ["f"] [(EMeth (EV "FQ12One") "Copy" [])];
     SDef ["foundOne"] [(EV "false")];
     SDef ["blsXRsh1"] [(EMeth (EV "blsX") "Copy" [])];
     SExpr (EMeth (EV "blsXRsh1") "Rsh" [(EI 1)]);
     SFor [SDef ["q"] [(ECall "uint" [(EI 0)])]] (Some (EBin "<=" (EV "q") (EMeth (EV "blsXRsh1") "BitLen" []))) [SOp "+" (EV "q") (EI 1)]
      [SDef ["set"] [(EMeth (EV "blsXRsh1") "Bit" [(EBin "-" (EMeth (EV "blsXRsh1") "BitLen" []) (EV "q"))])];
       SIf [] (EUn "!" (EV "foundOne"))
        [SAssign [(EV "foundOne")] [(EV "set")];
         SContinue]
        [];
       SRange "i" "pair" (EV "pairs")
        [SExpr (ECall "ell" [(EV "f"); (EIdx (ESel (EV "pair") "q") (ESel (EV "pair") "qIndex")); (EMeth (ESel (EV "pair") "p") "Copy" [])]);
         SOp "+" (ESel (EIdx (EV "pairs") (EV "i")) "qIndex") (EI 1)];
       SIf [] (EV "set")
        [SRange "i" "pair" (EV "pairs")
          [SExpr (ECall "ell" [(EV "f"); (EIdx (ESel (EV "pair") "q") (ESel (EV "pair") "qIndex")); (EMeth (ESel (EV "pair") "p") "Copy" [])]);
           SOp "+" (ESel (EIdx (EV "pairs") (EV "i")) "qIndex") (EI 1)]]
        [];
       SExpr (EMeth (EV "f") "SquareAssign" [])];
     SRange "i" "pair" (EV "pairs")
      [SExpr (ECall "ell" [(EV "f"); (EIdx (ESel (EV "pair") "q") (ESel (EV "pair") "qIndex")); (EMeth (ESel (EV "pair") "p") "Copy" [])]);
       SOp "+" (ESel (EIdx (EV "pairs") (EV "i")) "qIndex") (EI 1)];
     SIf [] (EV "blsIsNegative")
      [SExpr (EMeth (EV "f") "ConjugateAssign" [])]
      [];
     SRet [(EV "f")]].
(** pairing.go:79-129 *)
Definition src_FinalExponentiation : func := mkFunc [("r", "*FQ12")] [("_", "*FQ12")]
  [SDef ["f1"] [(EMeth (EV "r") "Copy" [])];
     SExpr (EMeth (EV "f1") "ConjugateAssign" []);
     SDef ["f2"] [(EMeth (EV "r") "Copy" [])];
     SIf [] (EUn "!" (EMeth (EV "f2") "InverseAssign" []))
      [SRet [(EV "nil")]]
      [];
     SAssign [(EV "r")] [(EMeth (EV "f1") "Copy" [])];
     SExpr (EMeth (EV "r") "MulAssign" [(EV "f2")]);
     SAssign [(EV "f2")] [(EMeth (EV "r") "Copy" [])];
     SExpr (EMeth (EV "r") "FrobeniusMapAssign" [(EI 2)]);
     SExpr (EMeth (EV "r") "MulAssign" [(EV "f2")]);
     SDef ["ExpByX"] [(EFunc [("f", "*FQ12"); ("x", "FQRepr")] [("_", "*FQ12")] [SDef ["newf"] [(EMeth (EV "f") "Exp" [(EV "x")])];
       SIf [] (EV "blsIsNegative")
        [SExpr (EMeth (EV "newf") "ConjugateAssign" [])]
        [];
       SRet [(EV "newf")]])];
     SDef ["x"] [(EMeth (EV "blsX") "Copy" [])];
     SDef ["y0"] [(EMeth (EV "r") "Copy" [])];
     SExpr (EMeth (EV "y0") "SquareAssign" []);
     SDef ["y1"] [(ECall "ExpByX" [(EV "y0"); (EV "x")])];
     SExpr (EMeth (EV "x") "Rsh" [(EI 1)]);
     SDef ["y2"] [(ECall "ExpByX" [(EV "y1"); (EV "x")])];
     SExpr (EMeth (EV "x") "Lsh" [(EI 1)]);
     SDef ["y3"] [(EMeth (EV "r") "Copy" [])];
     SExpr (EMeth (EV "y3") "ConjugateAssign" []);
     SAssign [(EV "y1")] [(EMeth (EV "y1") "Copy" [])];
     SExpr (EMeth (EV "y1") "MulAssign" [(EV "y3")]);
     SExpr (EMeth (EV "y1") "ConjugateAssign" []);
     SExpr (EMeth (EV "y1") "MulAssign" [(EV "y2")]);
     SAssign [(EV "y2")] [(ECall "ExpByX" [(EV "y1"); (EV "x")])];
     SAssign [(EV "y3")] [(ECall "ExpByX" [(EV "y2"); (EV "x")])];
     SExpr (EMeth (EV "y1") "ConjugateAssign" []);
     SExpr (EMeth (EV "y3") "MulAssign" [(EV "y1")]);
     SExpr (EMeth (EV "y1") "ConjugateAssign" []);
     SExpr (EMeth (EV "y1") "FrobeniusMapAssign" [(EI 3)]);
     SExpr (EMeth (EV "y2") "FrobeniusMapAssign" [(EI 2)]);
     SExpr (EMeth (EV "y1") "MulAssign" [(EV "y2")]);
     SAssign [(EV "y2")] [(ECall "ExpByX" [(EV "y3"); (EV "x")])];
     SExpr (EMeth (EV "y2") "MulAssign" [(EV "y0")]);
     SExpr (EMeth (EV "y2") "MulAssign" [(EV "r")]);
     SExpr (EMeth (EV "y1") "MulAssign" [(EV "y2")]);
     SExpr (EMeth (EV "y3") "FrobeniusMapAssign" [(EI 1)]);
     SExpr (EMeth (EV "y1") "MulAssign" [(EV "y3")]);
     SRet [(EV "y1")]].
(** pairing.go:132-136 *)
Definition src_Pairing : func := mkFunc [("p", "*G1Projective"); ("q", "*G2Projective")] [("_", "*FQ12")]
  [SRet [(ECall "FinalExponentiation" [(ECall "MillerLoop" [(EComp "[]MillerLoopItem" [("", (EComp "MillerLoopItem" [("", (EMeth (EV "p") "ToAffine" [])); ("", (ECall "G2AffineToPrepared" [(EMeth (EV "q") "ToAffine" [])]))]))])])])]].
(** pairing.go:140-147 *)
Definition src_CompareTwoPairings : func := mkFunc [("P1", "*G1Projective"); ("Q1", "*G2Projective"); ("P2", "*G1Projective"); ("Q2", "*G2Projective")] [("_", "bool")]
  [SDef ["negP2"] [(EMeth (EV "P2") "Copy" [])];
     SExpr (EMeth (EV "negP2") "NegAssign" []);
     SRet [(EMeth (ECall "FinalExponentiation" [(ECall "MillerLoop" [(EComp "[]MillerLoopItem" [("", (EComp "MillerLoopItem" [("", (EMeth (EV "P1") "ToAffine" [])); ("", (ECall "G2AffineToPrepared" [(EMeth (EV "Q1") "ToAffine" [])]))])); ("", (EComp "MillerLoopItem" [("", (EMeth (EV "negP2") "ToAffine" [])); ("", (ECall "G2AffineToPrepared" [(EMeth (EV "Q2") "ToAffine" [])]))]))])])]) "Equals" [(EV "FQ12One")])]].
(** hash.go:9-39 *)
Definition src_HashSecretKey : func := mkFunc [("b", "[32]byte")] [("_", "*FR")]
  [SDef ["h"] [(ECall "sha256.New" [])];
     SExpr (EMeth (EV "h") "Write" [(ESlice (EV "b") None None)]);
     SDef ["msgHash"] [(EMeth (EV "h") "Sum" [(EV "nil")])];
     SDef ["msgPrime"] [(ECall "append" [(EV "msgHash"); (EI 0)])];
     SDef ["t"] [(EComp "[]byte" [])];
     SFor [SDef ["j"] [(ECall "uint16" [(EI 1)])]] (Some (EBin "<=" (EV "j") (ECall "uint16" [(EI 2)]))) [SOp "+" (EV "j") (EI 1)]
      [SDef ["h"] [(ECall "sha256.New" [])];
       SExpr (EMeth (EV "h") "Write" [(EV "msgPrime")]);
       SExpr (EMeth (EV "h") "Write" [(EComp "[]byte" [("", (EI 1))])]);
       SVar "jByte" "[2]byte";
       SExpr (EMeth (EV "binary.BigEndian") "PutUint16" [(ESlice (EV "jByte") None None); (EV "j")]);
       SExpr (EMeth (EV "h") "Write" [(ESlice (EV "jByte") (Some (EI 1)) None)]);
       SDef ["out"] [(EMeth (EV "h") "Sum" [(EV "nil")])];
       SAssign [(EV "t")] [(ECallSpread "append" [(EV "t"); (EV "out")])]];
     SDef ["tBig"] [(ECall "new" [(ET "big.Int")])];
     SExpr (EMeth (EV "tBig") "SetBytes" [(EV "t")]);
     SExpr (EMeth (EV "tBig") "Mod" [(EV "tBig"); (EMeth (EV "RFieldModulus") "ToBig" [])]);
     SDef ["tFR"; "_"] [(ECall "FRReprFromBigInt" [(EV "tBig")])];
     SRet [(ECall "FRReprToFR" [(EV "tFR")])]].
(** hash.go:41-72 *)
Definition src_hp : func := mkFunc [("msg", "[]byte"); ("ctr", "uint8")] [("_", "FQ")]
  [SDef ["h"] [(ECall "sha256.New" [])];
     SExpr (EMeth (EV "h") "Write" [(EV "msg")]);
     SDef ["msgHash"] [(EMeth (EV "h") "Sum" [(EV "nil")])];
     SVar "ctrBytes" "[2]byte";
     SExpr (EMeth (EV "binary.BigEndian") "PutUint16" [(ESlice (EV "ctrBytes") None None); (ECall "uint16" [(EV "ctr")])]);
     SDef ["msgPrime"] [(ECallSpread "append" [(EV "msgHash"); (ESlice (EV "ctrBytes") (Some (EI 1)) None)])];
     SDef ["t"] [(EComp "[]byte" [])];
     SFor [SDef ["j"] [(ECall "uint16" [(EI 1)])]] (Some (EBin "<=" (EV "j") (ECall "uint16" [(EI 2)]))) [SOp "+" (EV "j") (EI 1)]
      [SDef ["h"] [(ECall "sha256.New" [])];
       SExpr (EMeth (EV "h") "Write" [(EV "msgPrime")]);
       SExpr (EMeth (EV "h") "Write" [(EComp "[]byte" [("", (EI 1))])]);
       SVar "jByte" "[2]byte";
       SExpr (EMeth (EV "binary.BigEndian") "PutUint16" [(ESlice (EV "jByte") None None); (EV "j")]);
       SExpr (EMeth (EV "h") "Write" [(ESlice (EV "jByte") (Some (EI 1)) None)]);
       SDef ["out"] [(EMeth (EV "h") "Sum" [(EV "nil")])];
       SAssign [(EV "t")] [(ECallSpread "append" [(EV "t"); (EV "out")])]];
     SDef ["tBig"] [(ECall "new" [(ET "big.Int")])];
     SExpr (EMeth (EV "tBig") "SetBytes" [(EV "t")]);
     SExpr (EMeth (EV "tBig") "Mod" [(EV "tBig"); (EMeth (EV "QFieldModulus") "ToBig" [])]);
     SDef ["tFQ"; "_"] [(ECall "FQReprFromBigInt" [(EV "tBig")])];
     SRet [(ECall "FQReprToFQ" [(EV "tFQ")])]].
(** hash.go:74-113 *)
Definition src_hp2 : func := mkFunc [("msg", "[]byte"); ("ctr", "uint8")] [("_", "FQ2")]
  [SDef ["h"] [(ECall "sha256.New" [])];
     SExpr (EMeth (EV "h") "Write" [(EV "msg")]);
     SDef ["msgHash"] [(EMeth (EV "h") "Sum" [(EV "nil")])];
     SVar "ctrBytes" "[2]byte";
     SExpr (EMeth (EV "binary.BigEndian") "PutUint16" [(ESlice (EV "ctrBytes") None None); (ECall "uint16" [(EV "ctr")])]);
     SDef ["msgPrime"] [(ECallSpread "append" [(EV "msgHash"); (ESlice (EV "ctrBytes") (Some (EI 1)) None)])];
     SVar "fqs" "[2]FQ";
     SFor [SDef ["i"] [(ECall "uint16" [(EI 1)])]] (Some (EBin "<=" (EV "i") (EI 2))) [SOp "+" (EV "i") (EI 1)]
      [SDef ["t"] [(EComp "[]byte" [])];
       SFor [SDef ["j"] [(ECall "uint16" [(EI 1)])]] (Some (EBin "<=" (EV "j") (ECall "uint16" [(EI 2)]))) [SOp "+" (EV "j") (EI 1)]
        [SDef ["h"] [(ECall "sha256.New" [])];
         SExpr (EMeth (EV "h") "Write" [(EV "msgPrime")]);
         SVar "iByte" "[2]byte";
         SExpr (EMeth (EV "binary.BigEndian") "PutUint16" [(ESlice (EV "iByte") None None); (EV "i")]);
         SExpr (EMeth (EV "h") "Write" [(ESlice (EV "iByte") (Some (EI 1)) None)]);
         SVar "jByte" "[2]byte";
         SExpr (EMeth (EV "binary.BigEndian") "PutUint16" [(ESlice (EV "jByte") None None); (EV "j")]);
         SExpr (EMeth (EV "h") "Write" [(ESlice (EV "jByte") (Some (EI 1)) None)]);
         SDef ["out"] [(EMeth (EV "h") "Sum" [(EV "nil")])];
         SAssign [(EV "t")] [(ECallSpread "append" [(EV "t"); (EV "out")])]];
       SDef ["tBig"] [(ECall "new" [(ET "big.Int")])];
       SExpr (EMeth (EV "tBig") "SetBytes" [(EV "t")]);
       SExpr (EMeth (EV "tBig") "Mod" [(EV "tBig"); (EMeth (EV "QFieldModulus") "ToBig" [])]);
       SDef ["tFQ"; "_"] [(ECall "FQReprFromBigInt" [(EV "tBig")])];
       SAssign [(EIdx (EV "fqs") (EBin "-" (EV "i") (EI 1)))] [(ECall "FQReprToFQ" [(EV "tFQ")])]];
     SRet [(ECall "NewFQ2" [(EIdx (EV "fqs") (EI 0)); (EIdx (EV "fqs") (EI 1))])]].
(** hash.go:185-206 *)
Definition src_iso11 : func := mkFunc [("p", "*G1Affine")] [("_", "*G1Affine")]
  [SDef ["x"] [(ESel (EV "p") "x")];
     SDef ["y"] [(ESel (EV "p") "y")];
     SDef ["mapVals"] [(ECall "make" [(ET "[]FQ"); (EI 4)])];
     SRange "idx" "coeffs" (EV "mapCoeffs11")
      [SAssign [(EIdx (EV "mapVals") (EV "idx"))] [(EIdx (EV "coeffs") (EBin "-" (ECall "len" [(EV "coeffs")]) (EI 1)))];
       SFor [SDef ["coeffIdx"] [(EBin "-" (ECall "len" [(EV "coeffs")]) (EI 2))]] (Some (EBin ">=" (EV "coeffIdx") (EI 0))) [SOp "-" (EV "coeffIdx") (EI 1)]
        [SExpr (EMeth (EIdx (EV "mapVals") (EV "idx")) "MulAssign" [(EV "x")]);
         SExpr (EMeth (EIdx (EV "mapVals") (EV "idx")) "AddAssign" [(EIdx (EV "coeffs") (EV "coeffIdx"))])]];
     SDef ["newX"] [(EIdx (EV "mapVals") (EI 0))];
     SExpr (EMeth (EV "newX") "DivAssign" [(EIdx (EV "mapVals") (EI 1))]);
     SDef ["newY"] [(EMeth (EV "y") "Copy" [])];
     SExpr (EMeth (EV "newY") "MulAssign" [(EIdx (EV "mapVals") (EI 2))]);
     SExpr (EMeth (EV "newY") "DivAssign" [(EIdx (EV "mapVals") (EI 3))]);
     SRet [(ECall "NewG1Affine" [(EV "newX"); (EV "newY")])]].
(** hash.go:282-303 *)
Definition src_iso3 : func := mkFunc [("p", "*G2Affine")] [("_", "*G2Affine")]
  [SDef ["x"] [(ESel (EV "p") "x")];
     SDef ["y"] [(ESel (EV "p") "y")];
     SDef ["mapVals"] [(ECall "make" [(ET "[]FQ2"); (EI 4)])];
     SRange "idx" "coeffs" (EV "mapCoeffs3")
      [SAssign [(EIdx (EV "mapVals") (EV "idx"))] [(EIdx (EV "coeffs") (EBin "-" (ECall "len" [(EV "coeffs")]) (EI 1)))];
       SFor [SDef ["coeffIdx"] [(EBin "-" (ECall "len" [(EV "coeffs")]) (EI 2))]] (Some (EBin ">=" (EV "coeffIdx") (EI 0))) [SOp "-" (EV "coeffIdx") (EI 1)]
        [SExpr (EMeth (EIdx (EV "mapVals") (EV "idx")) "MulAssign" [(EV "x")]);
         SExpr (EMeth (EIdx (EV "mapVals") (EV "idx")) "AddAssign" [(EIdx (EV "coeffs") (EV "coeffIdx"))])]];
     SDef ["newX"] [(EIdx (EV "mapVals") (EI 0))];
     SExpr (EMeth (EV "newX") "DivAssign" [(EIdx (EV "mapVals") (EI 1))]);
     SDef ["newY"] [(EMeth (EV "y") "Copy" [])];
     SExpr (EMeth (EV "newY") "MulAssign" [(EIdx (EV "mapVals") (EI 2))]);
     SExpr (EMeth (EV "newY") "DivAssign" [(EIdx (EV "mapVals") (EI 3))]);
     SRet [(ECall "NewG2Affine" [(EV "newX"); (EV "newY")])]].
(** hash.go:306-309 *)
Definition src_ClearH : func := mkFunc [("p", "*G1Affine")] [("_", "*G1Affine")]
  [SDef ["xP"] [(EMeth (EV "p") "Mul" [(ECall "NewFQRepr" [(EI 15132376222941642752)])])];
     SRet [(EMeth (EMeth (EV "xP") "AddAffine" [(EV "p")]) "ToAffine" [])]].
(** hash.go:311-321 *)
Definition src_optimizedSWUMap : func := mkFunc [("t1", "*FQ"); ("t2", "*FQ")] [("_", "*G1Affine")]
  [SDef ["Pp"] [(ECall "optimizedSWUMapHelper" [(EUn "*" (EV "t1"))])];
     SIf [] (EBin "!=" (EV "t2") (EV "nil"))
      [SDef ["Pp2"] [(ECall "optimizedSWUMapHelper" [(EUn "*" (EV "t2"))])];
       SAssign [(EV "Pp")] [(EMeth (EMeth (EMeth (EV "Pp") "ToProjective" []) "AddAffine" [(EV "Pp2")]) "ToAffine" [])]]
      [];
     SAssign [(EV "Pp")] [(ECall "iso11" [(EV "Pp")])];
     SRet [(ECall "ClearH" [(EV "Pp")])]].
(** hash.go:326-331 *)
Definition src_HashG1 : func := mkFunc [("msg", "[]byte")] [("_", "*G1Affine")]
  [SDef ["cipherSuiteAndMessage"] [(ECallSpread "append" [(EComp "[]byte" [("", (EV "cipherSuite"))]); (EV "msg")])];
     SDef ["t1"] [(ECall "hp" [(EV "cipherSuiteAndMessage"); (EI 0)])];
     SDef ["t2"] [(ECall "hp" [(EV "cipherSuiteAndMessage"); (EI 1)])];
     SRet [(ECall "optimizedSWUMap" [(EUn "&" (EV "t1")); (EUn "&" (EV "t2"))])]].
(** hash.go:341-366 *)
Definition src_psi : func := mkFunc [("g", "*G2Affine")] [("_", "*G2Affine")]
  [SDef ["newX"] [(EMeth (EV "fq2nqr") "Copy" [])];
     SDef ["qiX"] [(EMeth (EV "iwsc") "Copy" [])];
     SExpr (EMeth (EV "qiX") "MulAssign" [(ESel (EV "g") "x")]);
     SExpr (EMeth (ESel (EV "qiX") "c0") "MulAssign" [(EV "kQiX")]);
     SExpr (EMeth (ESel (EV "qiX") "c1") "MulAssign" [(EV "kQiX")]);
     SExpr (EMeth (ESel (EV "qiX") "c1") "NegAssign" []);
     SExpr (EMeth (EV "newX") "MulAssign" [(EV "qiX")]);
     SDef ["newY"] [(EMeth (EV "fq2nqr") "Copy" [])];
     SDef ["qiY"] [(EMeth (EV "iwsc") "Copy" [])];
     SExpr (EMeth (EV "qiY") "MulAssign" [(ESel (EV "g") "y")]);
     SDef ["y0y1"] [(EMeth (ESel (EV "qiY") "c0") "Copy" [])];
     SExpr (EMeth (EV "y0y1") "AddAssign" [(ESel (EV "qiY") "c1")]);
     SExpr (EMeth (EV "y0y1") "MulAssign" [(EV "kQiY")]);
     SDef ["y0SubY1"] [(EMeth (ESel (EV "qiY") "c0") "Copy" [])];
     SExpr (EMeth (EV "y0SubY1") "SubAssign" [(ESel (EV "qiY") "c1")]);
     SExpr (EMeth (EV "y0SubY1") "MulAssign" [(EV "kQiY")]);
     SAssign [(EV "qiY")] [(ECall "NewFQ2" [(EV "y0y1"); (EV "y0SubY1")])];
     SExpr (EMeth (EV "newY") "MulAssign" [(EV "qiY")]);
     SRet [(ECall "NewG2Affine" [(EV "newX"); (EV "newY")])]].
(** hash.go:368-389 *)
Definition src_clearH2 : func := mkFunc [("p", "*G2Affine")] [("_", "*G2Affine")]
  [SDef ["work"] [(EMeth (EV "p") "Mul" [(ECall "NewFQRepr" [(EI 15132376222941642752)])])];
     SAssign [(EV "work")] [(EMeth (EV "work") "AddAffine" [(EV "p")])];
     SDef ["minusPsiP"] [(ECall "psi" [(EV "p")])];
     SExpr (EMeth (EV "minusPsiP") "NegAssign" []);
     SAssign [(EV "work")] [(EMeth (EV "work") "AddAffine" [(EV "minusPsiP")])];
     SAssign [(EV "work")] [(EMeth (EV "work") "Mul" [(ECall "NewFQRepr" [(EI 15132376222941642752)])])];
     SAssign [(EV "work")] [(EMeth (EV "work") "AddAffine" [(EV "minusPsiP")])];
     SDef ["negP"] [(EMeth (EV "p") "Copy" [])];
     SExpr (EMeth (EV "negP") "NegAssign" []);
     SAssign [(EV "work")] [(EMeth (EV "work") "AddAffine" [(EV "negP")])];
     SDef ["p2"] [(EMeth (EMeth (EMeth (EV "p") "ToProjective" []) "Double" []) "ToAffine" [])];
     SDef ["psiPsi2P"] [(ECall "psi" [(ECall "psi" [(EV "p2")])])];
     SAssign [(EV "work")] [(EMeth (EV "work") "AddAffine" [(EV "psiPsi2P")])];
     SRet [(EMeth (EV "work") "ToAffine" [])]].
(** hash.go:391-402 *)
Definition src_optimizedSWUMap2 : func := mkFunc [("t1", "*FQ2"); ("t2", "*FQ2")] [("_", "*G2Affine")]
  [SDef ["Pp"] [(ECall "OptimizedSWU2MapHelper" [(EUn "*" (EV "t1"))])];
     SIf [] (EBin "!=" (EV "t2") (EV "nil"))
      [SDef ["Pp2"] [(ECall "OptimizedSWU2MapHelper" [(EUn "*" (EV "t2"))])];
       SAssign [(EV "Pp")] [(EMeth (EMeth (EMeth (EV "Pp") "ToProjective" []) "AddAffine" [(EV "Pp2")]) "ToAffine" [])]]
      [];
     SAssign [(EV "Pp")] [(ECall "iso3" [(EV "Pp")])];
     SRet [(ECall "clearH2" [(EV "Pp")])]].
(** hash.go:405-411 *)
Definition src_HashG2 : func := mkFunc [("msg", "[]byte")] [("_", "*G2Affine")]
  [SDef ["cipherSuiteAndMessage"] [(ECallSpread "append" [(EComp "[]byte" [("", (EV "cipherSuite"))]); (EV "msg")])];
     SDef ["t1"] [(ECall "hp2" [(EV "cipherSuiteAndMessage"); (EI 0)])];
     SDef ["t2"] [(ECall "hp2" [(EV "cipherSuiteAndMessage"); (EI 1)])];
     SDef ["h"] [(ECall "optimizedSWUMap2" [(EUn "&" (EV "t1")); (EUn "&" (EV "t2"))])];
     SRet [(EV "h")]].
(** g1pubs/bls.go:18-20 *)
Definition src_g1pubs_Signature_Serialize : func := mkFunc [("s", "*Signature")] [("_", "[96]byte")]
  [SRet [(ECall "CompressG2" [(EMeth (ESel (EV "s") "s") "ToAffine" [])])]].
(** g1pubs/bls.go:22-24 *)
Definition src_g1pubs_Signature_String : func := mkFunc [("s", "*Signature")] [("_", "string")]
  [SRet [(EMeth (ESel (EV "s") "s") "String" [])]].
(** g1pubs/bls.go:27-29 *)
Definition src_g1pubs_Signature_GetPoint : func := mkFunc [("s", "*Signature")] [("_", "*bls.G2Projective")]
  [SRet [(EMeth (ESel (EV "s") "s") "Copy" [])]].
(** g1pubs/bls.go:33-35 *)
Definition src_g1pubs_NewSignatureFromG2 : func := mkFunc [("g2", "*bls.G2Affine")] [("_", "*Signature")]
  [SRet [(EUn "&" (EComp "Signature" [("", (EMeth (EV "g2") "ToProjective" []))]))]].
(** g1pubs/bls.go:38-45 *)
Definition src_g1pubs_DeserializeSignature : func := mkFunc [("b", "[96]byte")] [("_", "*Signature"); ("_", "error")]
  [SDef ["a"; "err"] [(ECall "DecompressG2" [(EV "b")])];
     SIf [] (EBin "!=" (EV "err") (EV "nil"))
      [SRet [(EV "nil"); (EV "err")]]
      [];
     SRet [(EUn "&" (EComp "Signature" [("s", (EMeth (EV "a") "ToProjective" []))])); (EV "nil")]].
(** g1pubs/bls.go:48-50 *)
Definition src_g1pubs_Signature_Copy : func := mkFunc [("s", "*Signature")] [("_", "*Signature")]
  [SRet [(EUn "&" (EComp "Signature" [("", (EMeth (ESel (EV "s") "s") "Copy" []))]))]].
(** g1pubs/bls.go:57-59 *)
Definition src_g1pubs_PublicKey_String : func := mkFunc [("p", "PublicKey")] [("_", "string")]
  [SRet [(EMeth (ESel (EV "p") "p") "String" [])]].
(** g1pubs/bls.go:62-64 *)
Definition src_g1pubs_PublicKey_GetPoint : func := mkFunc [("p", "*PublicKey")] [("_", "*bls.G1Projective")]
  [SRet [(EMeth (ESel (EV "p") "p") "Copy" [])]].
(** g1pubs/bls.go:67-69 *)
Definition src_g1pubs_PublicKey_Serialize : func := mkFunc [("p", "PublicKey")] [("_", "[48]byte")]
  [SRet [(ECall "CompressG1" [(EMeth (ESel (EV "p") "p") "ToAffine" [])])]].
(** g1pubs/bls.go:72-74 *)
Definition src_g1pubs_NewPublicKeyFromG1 : func := mkFunc [("g1", "*bls.G1Affine")] [("_", "*PublicKey")]
  [SRet [(EUn "&" (EComp "PublicKey" [("", (EMeth (EV "g1") "ToProjective" []))]))]].
(** g1pubs/bls.go:76-82 *)
Definition src_g1pubs_concatAppend : func := mkFunc [("slices", "[][]byte")] [("_", "[]byte")]
  [SVar "tmp" "[]byte";
     SRange "_" "s" (EV "slices")
      [SAssign [(EV "tmp")] [(ECallSpread "append" [(EV "tmp"); (EV "s")])]];
     SRet [(EV "tmp")]].
(** g1pubs/bls.go:85-87 *)
Definition src_g1pubs_PublicKey_Equals : func := mkFunc [("p", "PublicKey"); ("other", "PublicKey")] [("_", "bool")]
  [SRet [(EMeth (ESel (EV "p") "p") "Equal" [(ESel (EV "other") "p")])]].
(** g1pubs/bls.go:91-98 *)
Definition src_g1pubs_DeserializePublicKey : func := mkFunc [("b", "[48]byte")] [("_", "*PublicKey"); ("_", "error")]
  [SDef ["a"; "err"] [(ECall "DecompressG1" [(EV "b")])];
     SIf [] (EBin "!=" (EV "err") (EV "nil"))
      [SRet [(EV "nil"); (EV "err")]]
      [];
     SRet [(EUn "&" (EComp "PublicKey" [("p", (EMeth (EV "a") "ToProjective" []))])); (EV "nil")]].
(** g1pubs/bls.go:106-108 *)
Definition src_g1pubs_SecretKey_GetFRElement : func := mkFunc [("s", "SecretKey")] [("_", "*bls.FR")]
  [SRet [(ESel (EV "s") "f")]].
(** g1pubs/bls.go:110-112 *)
Definition src_g1pubs_SecretKey_String : func := mkFunc [("s", "SecretKey")] [("_", "string")]
  [SRet [(EMeth (ESel (EV "s") "f") "String" [])]].
(** g1pubs/bls.go:115-117 *)
Definition src_g1pubs_SecretKey_Serialize : func := mkFunc [("s", "SecretKey")] [("_", "[32]byte")]
  [SRet [(EMeth (ESel (EV "s") "f") "Bytes" [])]].
(** g1pubs/bls.go:121-123 *)
Definition src_g1pubs_DeserializeSecretKey : func := mkFunc [("b", "[32]byte")] [("_", "*SecretKey")]
  [SRet [(EUn "&" (EComp "SecretKey" [("", (ECall "FRReprToFR" [(ECall "FRReprFromBytes" [(EV "b")])]))]))]].
(** g1pubs/bls.go:127-129 *)
Definition src_g1pubs_DeriveSecretKey : func := mkFunc [("b", "[32]byte")] [("_", "*SecretKey")]
  [SRet [(EUn "&" (EComp "SecretKey" [("", (ECall "HashSecretKey" [(EV "b")]))]))]].
(** g1pubs/bls.go:132-135 *)
Definition src_g1pubs_Sign : func := mkFunc [("message", "[]byte"); ("key", "*SecretKey")] [("_", "*Signature")]
  [SDef ["h"] [(EMeth (ECall "HashG2" [(EV "message")]) "MulFR" [(EMeth (ESel (EV "key") "f") "ToRepr" [])])];
     SRet [(EUn "&" (EComp "Signature" [("s", (EV "h"))]))]].
(** g1pubs/bls.go:138-141 *)
Definition src_g1pubs_SignWithDomain : func := mkFunc [("message", "[32]byte"); ("key", "*SecretKey"); ("domain", "[8]byte")] [("_", "*Signature")]
  [SDef ["h"] [(EMeth (ECall "HashG2WithDomain" [(EV "message"); (EV "domain")]) "MulFR" [(EMeth (ESel (EV "key") "f") "ToRepr" [])])];
     SRet [(EUn "&" (EComp "Signature" [("s", (EV "h"))]))]].
(** g1pubs/bls.go:144-146 *)
Definition src_g1pubs_PrivToPub : func := mkFunc [("k", "*SecretKey")] [("_", "*PublicKey")]
  [SRet [(EUn "&" (EComp "PublicKey" [("p", (EMeth (EV "G1AffineOne") "MulFR" [(EMeth (ESel (EV "k") "f") "ToRepr" [])]))]))]].
(** g1pubs/bls.go:149-156 *)
Definition src_g1pubs_RandKey : func := mkFunc [("r", "io.Reader")] [("_", "*SecretKey"); ("_", "error")]
  [SDef ["k"; "err"] [(ECall "RandFR" [(EV "r")])];
     SIf [] (EBin "!=" (EV "err") (EV "nil"))
      [SRet [(EV "nil"); (EV "err")]]
      [];
     SDef ["s"] [(EUn "&" (EComp "SecretKey" [("f", (EV "k"))]))];
     SRet [(EV "s"); (EV "nil")]].
(** g1pubs/bls.go:160-162 *)
Definition src_g1pubs_KeyFromFQRepr : func := mkFunc [("i", "*bls.FRRepr")] [("_", "*SecretKey")]
  [SRet [(EUn "&" (EComp "SecretKey" [("f", (ECall "FRReprToFR" [(EV "i")]))]))]].
(** g1pubs/bls.go:165-168 *)
Definition src_g1pubs_Verify : func := mkFunc [("m", "[]byte"); ("pub", "*PublicKey"); ("sig", "*Signature")] [("_", "bool")]
  [SDef ["h"] [(ECall "HashG2" [(EV "m")])];
     SRet [(ECall "CompareTwoPairings" [(EV "G1ProjectiveOne"); (ESel (EV "sig") "s"); (ESel (EV "pub") "p"); (EMeth (EV "h") "ToProjective" [])])]].
(** g1pubs/bls.go:171-174 *)
Definition src_g1pubs_VerifyWithDomain : func := mkFunc [("m", "[32]byte"); ("pub", "*PublicKey"); ("sig", "*Signature"); ("domain", "[8]byte")] [("_", "bool")]
  [SDef ["h"] [(ECall "HashG2WithDomain" [(EV "m"); (EV "domain")])];
     SRet [(ECall "CompareTwoPairings" [(EV "G1ProjectiveOne"); (ESel (EV "sig") "s"); (ESel (EV "pub") "p"); (EMeth (EMeth (EV "h") "ToAffine" []) "ToProjective" [])])]].
(** g1pubs/bls.go:177-183 *)
Definition src_g1pubs_AggregateSignatures : func := mkFunc [("s", "[]*Signature")] [("_", "*Signature")]
  [SDef ["newSig"] [(EUn "&" (EComp "Signature" [("s", (EMeth (EV "G2ProjectiveZero") "Copy" []))]))];
     SRange "_" "sig" (EV "s")
      [SExpr (EMeth (EV "newSig") "Aggregate" [(EV "sig")])];
     SRet [(EV "newSig")]].
(** g1pubs/bls.go:186-189 *)
Definition src_g1pubs_Signature_Aggregate : func := mkFunc [("s", "*Signature"); ("other", "*Signature")] []
  [SDef ["newS"] [(EMeth (ESel (EV "s") "s") "Add" [(ESel (EV "other") "s")])];
     SAssign [(ESel (EV "s") "s")] [(EV "newS")]].
(** g1pubs/bls.go:192-198 *)
Definition src_g1pubs_AggregatePublicKeys : func := mkFunc [("p", "[]*PublicKey")] [("_", "*PublicKey")]
  [SDef ["newPub"] [(EUn "&" (EComp "PublicKey" [("p", (EMeth (EV "G1ProjectiveZero") "Copy" []))]))];
     SRange "_" "pub" (EV "p")
      [SExpr (EMeth (EV "newPub") "Aggregate" [(EV "pub")])];
     SRet [(EV "newPub")]].
(** g1pubs/bls.go:201-204 *)
Definition src_g1pubs_PublicKey_Aggregate : func := mkFunc [("p", "*PublicKey"); ("other", "*PublicKey")] []
  [SDef ["newP"] [(EMeth (ESel (EV "p") "p") "Add" [(ESel (EV "other") "p")])];
     SAssign [(ESel (EV "p") "p")] [(EV "newP")]].
(** g1pubs/bls.go:207-209 *)
Definition src_g1pubs_PublicKey_Copy : func := mkFunc [("p", "*PublicKey")] [("_", "*PublicKey")]
  [SRet [(EUn "&" (EComp "PublicKey" [("p", (EMeth (ESel (EV "p") "p") "Copy" []))]))]].
(** g1pubs/bls.go:212-214 *)
Definition src_g1pubs_NewAggregateSignature : func := mkFunc [] [("_", "*Signature")]
  [SRet [(EUn "&" (EComp "Signature" [("s", (EMeth (EV "G2ProjectiveZero") "Copy" []))]))]].
(** g1pubs/bls.go:217-219 *)
Definition src_g1pubs_NewAggregatePubkey : func := mkFunc [] [("_", "*PublicKey")]
  [SRet [(EUn "&" (EComp "PublicKey" [("p", (EMeth (EV "G1ProjectiveZero") "Copy" []))]))]].
(** g1pubs/bls.go:224-226 *)
Definition src_g1pubs_sortableByteArray_Len : func := mkFunc [("b", "sortableByteArray")] [("_", "int")]
  [SRet [(ECall "len" [(EV "b")])]].
(** g1pubs/bls.go:228-239 *)
Definition src_g1pubs_sortableByteArray_Less : func := mkFunc [("b", "sortableByteArray"); ("i", "int"); ("j", "int")] [("_", "bool")]
  [SSwitch (ECall "bytes.Compare" [(EIdx (EV "b") (EV "i")); (EIdx (EV "b") (EV "j"))]) [(Some [(EUn "-" (EI 1))], [SRet [(EV "true")]]); (Some [(EI 0); (EI 1)], [SRet [(EV "false")]]); (None, [SExpr (ECall "log.Panic" [(ES "not fail-able with `bytes.Comparable` bounded [-1, 1].")]);
       SRet [(EV "false")]])]].
(** g1pubs/bls.go:241-243 *)
Definition src_g1pubs_sortableByteArray_Swap : func := mkFunc [("b", "sortableByteArray"); ("i", "int"); ("j", "int")] []
  [SAssign [(EIdx (EV "b") (EV "j")); (EIdx (EV "b") (EV "i"))] [(EIdx (EV "b") (EV "i")); (EIdx (EV "b") (EV "j"))]].
(** g1pubs/bls.go:245-249 *)
Definition src_g1pubs_sortByteArrays : func := mkFunc [("src", "[][]byte")] [("_", "[][]byte")]
  [SDef ["sorted"] [(ECall "sortableByteArray" [(EV "src")])];
     SExpr (ECall "sort.Sort" [(EV "sorted")]);
     SRet [(EV "sorted")]].
(** g1pubs/bls.go:252-282 *)
Definition src_g1pubs_Signature_VerifyAggregate : func := mkFunc [("s", "*Signature"); ("pubKeys", "[]*PublicKey"); ("msgs", "[][]byte")] [("_", "bool")]
  [SIf [] (EBin "!=" (ECall "len" [(EV "pubKeys")]) (ECall "len" [(EV "msgs")]))
      [SRet [(EV "false")]]
      [];
     SDef ["msgsCopy"] [(ECall "make" [(ET "[][]byte"); (ECall "len" [(EV "msgs")])])];
     SRange "i" "m" (EV "msgs")
      [SAssign [(EIdx (EV "msgsCopy") (EV "i"))] [(ECall "make" [(ET "[]byte"); (ECall "len" [(EV "m")])])];
       SExpr (ECall "copy" [(EIdx (EV "msgsCopy") (EV "i")); (EV "m")])];
     SDef ["msgsSorted"] [(ECall "sortByteArrays" [(EV "msgsCopy")])];
     SDef ["lastMsg"] [(ECall "[]byte" [(EV "nil")])];
     SRange "_" "m" (EV "msgsSorted")
      [SIf [] (ECall "bytes.Equal" [(EV "m"); (EV "lastMsg")])
        [SRet [(EV "false")]]
        [];
       SAssign [(EV "lastMsg")] [(EV "m")]];
     SDef ["lhs"] [(ECall "Pairing" [(EV "G1ProjectiveOne"); (ESel (EV "s") "s")])];
     SDef ["rhs"] [(EMeth (EV "FQ12One") "Copy" [])];
     SRange "i" "_" (EV "pubKeys")
      [SDef ["h"] [(ECall "HashG2" [(EIdx (EV "msgs") (EV "i"))])];
       SExpr (EMeth (EV "rhs") "MulAssign" [(ECall "Pairing" [(ESel (EIdx (EV "pubKeys") (EV "i")) "p"); (EMeth (EV "h") "ToProjective" [])])])];
     SRet [(EMeth (EV "lhs") "Equals" [(EV "rhs")])]].
(** g1pubs/bls.go:287-290 *)
Definition src_g1pubs_Signature_VerifyAggregateCommon : func := mkFunc [("s", "*Signature"); ("pubKeys", "[]*PublicKey"); ("msg", "[]byte")] [("_", "bool")]
  [SDef ["aggPub"] [(ECall "AggregatePublicKeys" [(EV "pubKeys")])];
     SRet [(ECall "Verify" [(EV "msg"); (EV "aggPub"); (EV "s")])]].
(** g1pubs/bls.go:294-297 *)
Definition src_g1pubs_Signature_VerifyAggregateCommonWithDomain : func := mkFunc [("s", "*Signature"); ("pubKeys", "[]*PublicKey"); ("msg", "[32]byte"); ("domain", "[8]byte")] [("_", "bool")]
  [SDef ["aggPub"] [(ECall "AggregatePublicKeys" [(EV "pubKeys")])];
     SRet [(ECall "VerifyWithDomain" [(EV "msg"); (EV "aggPub"); (EV "s"); (EV "domain")])]].
(** g1pubs/bls.go:300-311 *)
Definition src_g1pubs_Signature_VerifyAggregateWithDomain : func := mkFunc [("s", "*Signature"); ("pubKeys", "[]*PublicKey"); ("msgs", "[][32]byte"); ("domain", "[8]byte")] [("_", "bool")]
  [SIf [] (EBin "!=" (ECall "len" [(EV "pubKeys")]) (ECall "len" [(EV "msgs")]))
      [SRet [(EV "false")]]
      [];
     SDef ["lhs"] [(ECall "Pairing" [(EV "G1ProjectiveOne"); (ESel (EV "s") "s")])];
     SDef ["rhs"] [(EMeth (EV "FQ12One") "Copy" [])];
     SRange "i" "_" (EV "pubKeys")
      [SDef ["h"] [(ECall "HashG2WithDomain" [(EIdx (EV "msgs") (EV "i")); (EV "domain")])];
       SExpr (EMeth (EV "rhs") "MulAssign" [(ECall "Pairing" [(ESel (EIdx (EV "pubKeys") (EV "i")) "p"); (EMeth (EMeth (EV "h") "ToAffine" []) "ToProjective" [])])])];
     SRet [(EMeth (EV "lhs") "Equals" [(EV "rhs")])]].
(** g2pubs/bls.go:18-20 *)
Definition src_g2pubs_Signature_Serialize : func := mkFunc [("s", "*Signature")] [("_", "[48]byte")]
  [SRet [(ECall "CompressG1" [(EMeth (ESel (EV "s") "s") "ToAffine" [])])]].
(** g2pubs/bls.go:22-24 *)
Definition src_g2pubs_Signature_String : func := mkFunc [("s", "*Signature")] [("_", "string")]
  [SRet [(EMeth (ESel (EV "s") "s") "String" [])]].
(** g2pubs/bls.go:28-30 *)
Definition src_g2pubs_NewSignatureFromG1 : func := mkFunc [("g1", "*bls.G1Affine")] [("_", "*Signature")]
  [SRet [(EUn "&" (EComp "Signature" [("", (EMeth (EV "g1") "ToProjective" []))]))]].
(** g2pubs/bls.go:33-40 *)
Definition src_g2pubs_DeserializeSignature : func := mkFunc [("b", "[48]byte")] [("_", "*Signature"); ("_", "error")]
  [SDef ["a"; "err"] [(ECall "DecompressG1" [(EV "b")])];
     SIf [] (EBin "!=" (EV "err") (EV "nil"))
      [SRet [(EV "nil"); (EV "err")]]
      [];
     SRet [(EUn "&" (EComp "Signature" [("s", (EMeth (EV "a") "ToProjective" []))])); (EV "nil")]].
(** g2pubs/bls.go:43-45 *)
Definition src_g2pubs_Signature_Copy : func := mkFunc [("s", "*Signature")] [("_", "*Signature")]
  [SRet [(EUn "&" (EComp "Signature" [("", (EMeth (ESel (EV "s") "s") "Copy" []))]))]].
(** g2pubs/bls.go:48-50 *)
Definition src_g2pubs_Signature_GetPoint : func := mkFunc [("s", "*Signature")] [("_", "*bls.G1Projective")]
  [SRet [(EMeth (ESel (EV "s") "s") "Copy" [])]].
(** g2pubs/bls.go:58-60 *)
Definition src_g2pubs_PublicKey_GetPoint : func := mkFunc [("p", "*PublicKey")] [("_", "*bls.G2Projective")]
  [SRet [(EMeth (ESel (EV "p") "p") "Copy" [])]].
(** g2pubs/bls.go:62-64 *)
Definition src_g2pubs_PublicKey_String : func := mkFunc [("p", "PublicKey")] [("_", "string")]
  [SRet [(EMeth (ESel (EV "p") "p") "String" [])]].
(** g2pubs/bls.go:67-69 *)
Definition src_g2pubs_PublicKey_Serialize : func := mkFunc [("p", "PublicKey")] [("_", "[96]byte")]
  [SRet [(ECall "CompressG2" [(EMeth (ESel (EV "p") "p") "ToAffine" [])])]].
(** g2pubs/bls.go:72-74 *)
Definition src_g2pubs_NewPublicKeyFromG2 : func := mkFunc [("g2", "*bls.G2Affine")] [("_", "*PublicKey")]
  [SRet [(EUn "&" (EComp "PublicKey" [("", (EMeth (EV "g2") "ToProjective" []))]))]].
(** g2pubs/bls.go:76-82 *)
Definition src_g2pubs_concatAppend : func := mkFunc [("slices", "[][]byte")] [("_", "[]byte")]
  [SVar "tmp" "[]byte";
     SRange "_" "s" (EV "slices")
      [SAssign [(EV "tmp")] [(ECallSpread "append" [(EV "tmp"); (EV "s")])]];
     SRet [(EV "tmp")]].
(** g2pubs/bls.go:85-87 *)
Definition src_g2pubs_PublicKey_Equals : func := mkFunc [("p", "PublicKey"); ("other", "PublicKey")] [("_", "bool")]
  [SRet [(EMeth (ESel (EV "p") "p") "Equals" [(ESel (EV "other") "p")])]].
(** g2pubs/bls.go:91-98 *)
Definition src_g2pubs_DeserializePublicKey : func := mkFunc [("b", "[96]byte")] [("_", "*PublicKey"); ("_", "error")]
  [SDef ["a"; "err"] [(ECall "DecompressG2" [(EV "b")])];
     SIf [] (EBin "!=" (EV "err") (EV "nil"))
      [SRet [(EV "nil"); (EV "err")]]
      [];
     SRet [(EUn "&" (EComp "PublicKey" [("p", (EMeth (EV "a") "ToProjective" []))])); (EV "nil")]].
(** g2pubs/bls.go:106-108 *)
Definition src_g2pubs_SecretKey_GetFRElement : func := mkFunc [("s", "SecretKey")] [("_", "*bls.FR")]
  [SRet [(ESel (EV "s") "f")]].
(** g2pubs/bls.go:110-112 *)
Definition src_g2pubs_SecretKey_String : func := mkFunc [("s", "SecretKey")] [("_", "string")]
  [SRet [(EMeth (ESel (EV "s") "f") "String" [])]].
(** g2pubs/bls.go:115-117 *)
Definition src_g2pubs_SecretKey_Serialize : func := mkFunc [("s", "SecretKey")] [("_", "[32]byte")]
  [SRet [(EMeth (ESel (EV "s") "f") "Bytes" [])]].
(** g2pubs/bls.go:121-123 *)
Definition src_g2pubs_DeserializeSecretKey : func := mkFunc [("b", "[32]byte")] [("_", "*SecretKey")]
  [SRet [(EUn "&" (EComp "SecretKey" [("", (ECall "FRReprToFR" [(ECall "FRReprFromBytes" [(EV "b")])]))]))]].
(** g2pubs/bls.go:127-129 *)
Definition src_g2pubs_DeriveSecretKey : func := mkFunc [("b", "[32]byte")] [("_", "*SecretKey")]
  [SRet [(EUn "&" (EComp "SecretKey" [("", (ECall "HashSecretKey" [(EV "b")]))]))]].
(** g2pubs/bls.go:132-135 *)
Definition src_g2pubs_Sign : func := mkFunc [("message", "[]byte"); ("key", "*SecretKey")] [("_", "*Signature")]
  [SDef ["h"] [(EMeth (ECall "HashG1" [(EV "message")]) "MulFR" [(EMeth (ESel (EV "key") "f") "ToRepr" [])])];
     SRet [(EUn "&" (EComp "Signature" [("s", (EV "h"))]))]].
(** g2pubs/bls.go:138-140 *)
Definition src_g2pubs_PrivToPub : func := mkFunc [("k", "*SecretKey")] [("_", "*PublicKey")]
  [SRet [(EUn "&" (EComp "PublicKey" [("p", (EMeth (EV "G2AffineOne") "MulFR" [(EMeth (ESel (EV "k") "f") "ToRepr" [])]))]))]].
(** g2pubs/bls.go:143-150 *)
Definition src_g2pubs_RandKey : func := mkFunc [("r", "io.Reader")] [("_", "*SecretKey"); ("_", "error")]
  [SDef ["k"; "err"] [(ECall "RandFR" [(EV "r")])];
     SIf [] (EBin "!=" (EV "err") (EV "nil"))
      [SRet [(EV "nil"); (EV "err")]]
      [];
     SDef ["s"] [(EUn "&" (EComp "SecretKey" [("f", (EV "k"))]))];
     SRet [(EV "s"); (EV "nil")]].
(** g2pubs/bls.go:154-156 *)
Definition src_g2pubs_KeyFromFQRepr : func := mkFunc [("i", "*bls.FRRepr")] [("_", "*SecretKey")]
  [SRet [(EUn "&" (EComp "SecretKey" [("f", (ECall "FRReprToFR" [(EV "i")]))]))]].
(** g2pubs/bls.go:159-162 *)
Definition src_g2pubs_Verify : func := mkFunc [("m", "[]byte"); ("pub", "*PublicKey"); ("sig", "*Signature")] [("_", "bool")]
  [SDef ["h"] [(ECall "HashG1" [(EV "m")])];
     SRet [(ECall "CompareTwoPairings" [(ESel (EV "sig") "s"); (EV "G2ProjectiveOne"); (EMeth (EV "h") "ToProjective" []); (ESel (EV "pub") "p")])]].
(** g2pubs/bls.go:165-171 *)
Definition src_g2pubs_AggregateSignatures : func := mkFunc [("s", "[]*Signature")] [("_", "*Signature")]
  [SDef ["newSig"] [(EUn "&" (EComp "Signature" [("s", (EMeth (EV "G1ProjectiveZero") "Copy" []))]))];
     SRange "_" "sig" (EV "s")
      [SExpr (EMeth (EV "newSig") "Aggregate" [(EV "sig")])];
     SRet [(EV "newSig")]].
(** g2pubs/bls.go:174-177 *)
Definition src_g2pubs_Signature_Aggregate : func := mkFunc [("s", "*Signature"); ("other", "*Signature")] []
  [SDef ["newS"] [(EMeth (ESel (EV "s") "s") "Add" [(ESel (EV "other") "s")])];
     SAssign [(ESel (EV "s") "s")] [(EV "newS")]].
(** g2pubs/bls.go:180-186 *)
Definition src_g2pubs_AggregatePublicKeys : func := mkFunc [("p", "[]*PublicKey")] [("_", "*PublicKey")]
  [SDef ["newPub"] [(EUn "&" (EComp "PublicKey" [("p", (EMeth (EV "G2ProjectiveZero") "Copy" []))]))];
     SRange "_" "pub" (EV "p")
      [SExpr (EMeth (EV "newPub") "Aggregate" [(EV "pub")])];
     SRet [(EV "newPub")]].
(** g2pubs/bls.go:189-192 *)
Definition src_g2pubs_PublicKey_Aggregate : func := mkFunc [("p", "*PublicKey"); ("other", "*PublicKey")] []
  [SDef ["newP"] [(EMeth (ESel (EV "p") "p") "Add" [(ESel (EV "other") "p")])];
     SAssign [(ESel (EV "p") "p")] [(EV "newP")]].
(** g2pubs/bls.go:195-197 *)
Definition src_g2pubs_PublicKey_Copy : func := mkFunc [("p", "*PublicKey")] [("_", "*PublicKey")]
  [SRet [(EUn "&" (EComp "PublicKey" [("p", (EMeth (ESel (EV "p") "p") "Copy" []))]))]].
(** g2pubs/bls.go:200-202 *)
Definition src_g2pubs_NewAggregateSignature : func := mkFunc [] [("_", "*Signature")]
  [SRet [(EUn "&" (EComp "Signature" [("s", (EMeth (EV "G1ProjectiveZero") "Copy" []))]))]].
(** g2pubs/bls.go:205-207 *)
Definition src_g2pubs_NewAggregatePubkey : func := mkFunc [] [("_", "*PublicKey")]
  [SRet [(EUn "&" (EComp "PublicKey" [("p", (EMeth (EV "G2ProjectiveZero") "Copy" []))]))]].
(** g2pubs/bls.go:212-214 *)
Definition src_g2pubs_sortableByteArray_Len : func := mkFunc [("b", "sortableByteArray")] [("_", "int")]
  [SRet [(ECall "len" [(EV "b")])]].
(** g2pubs/bls.go:216-227 *)
Definition src_g2pubs_sortableByteArray_Less : func := mkFunc [("b", "sortableByteArray"); ("i", "int"); ("j", "int")] [("_", "bool")]
  [SSwitch (ECall "bytes.Compare" [(EIdx (EV "b") (EV "i")); (EIdx (EV "b") (EV "j"))]) [(Some [(EUn "-" (EI 1))], [SRet [(EV "true")]]); (Some [(EI 0); (EI 1)], [SRet [(EV "false")]]); (None, [SExpr (ECall "log.Panic" [(ES "not fail-able with `bytes.Comparable` bounded [-1, 1].")]);
       SRet [(EV "false")]])]].
(** g2pubs/bls.go:229-231 *)
Definition src_g2pubs_sortableByteArray_Swap : func := mkFunc [("b", "sortableByteArray"); ("i", "int"); ("j", "int")] []
  [SAssign [(EIdx (EV "b") (EV "j")); (EIdx (EV "b") (EV "i"))] [(EIdx (EV "b") (EV "i")); (EIdx (EV "b") (EV "j"))]].
(** g2pubs/bls.go:233-237 *)
Definition src_g2pubs_sortByteArrays : func := mkFunc [("src", "[][]byte")] [("_", "[][]byte")]
  [SDef ["sorted"] [(ECall "sortableByteArray" [(EV "src")])];
     SExpr (ECall "sort.Sort" [(EV "sorted")]);
     SRet [(EV "sorted")]].
(** g2pubs/bls.go:240-270 *)
Definition src_g2pubs_Signature_VerifyAggregate : func := mkFunc [("s", "*Signature"); ("pubKeys", "[]*PublicKey"); ("msgs", "[][]byte")] [("_", "bool")]
  [SIf [] (EBin "!=" (ECall "len" [(EV "pubKeys")]) (ECall "len" [(EV "msgs")]))
      [SRet [(EV "false")]]
      [];
     SDef ["msgsCopy"] [(ECall "make" [(ET "[][]byte"); (ECall "len" [(EV "msgs")])])];
     SRange "i" "m" (EV "msgs")
      [SAssign [(EIdx (EV "msgsCopy") (EV "i"))] [(ECall "make" [(ET "[]byte"); (ECall "len" [(EV "m")])])];
       SExpr (ECall "copy" [(EIdx (EV "msgsCopy") (EV "i")); (EV "m")])];
     SDef ["msgsSorted"] [(ECall "sortByteArrays" [(EV "msgsCopy")])];
     SDef ["lastMsg"] [(ECall "[]byte" [(EV "nil")])];
     SRange "_" "m" (EV "msgsSorted")
      [SIf [] (ECall "bytes.Equal" [(EV "m"); (EV "lastMsg")])
        [SRet [(EV "false")]]
        [];
       SAssign [(EV "lastMsg")] [(EV "m")]];
     SDef ["lhs"] [(ECall "Pairing" [(ESel (EV "s") "s"); (EV "G2ProjectiveOne")])];
     SDef ["rhs"] [(EMeth (EV "FQ12One") "Copy" [])];
     SRange "i" "_" (EV "pubKeys")
      [SDef ["h"] [(ECall "HashG1" [(EIdx (EV "msgs") (EV "i"))])];
       SExpr (EMeth (EV "rhs") "MulAssign" [(ECall "Pairing" [(EMeth (EV "h") "ToProjective" []); (ESel (EIdx (EV "pubKeys") (EV "i")) "p")])])];
     SRet [(EMeth (EV "lhs") "Equals" [(EV "rhs")])]].
(** g2pubs/bls.go:275-278 *)
Definition src_g2pubs_Signature_VerifyAggregateCommon : func := mkFunc [("s", "*Signature"); ("pubKeys", "[]*PublicKey"); ("msg", "[]byte")] [("_", "bool")]
  [SDef ["aggPub"] [(ECall "AggregatePublicKeys" [(EV "pubKeys")])];
     SRet [(ECall "Verify" [(EV "msg"); (EV "aggPub"); (EV "s")])]].

(** Every function of the listed files, by name: T.m is the method m of type T. *)
Definition srcs_fqrepr : list (string * func) := [
  ("FQRepr.IsOdd", src_FQRepr_IsOdd);
  ("FQRepr.IsEven", src_FQRepr_IsEven);
  ("FQRepr.IsZero", src_FQRepr_IsZero);
  ("NewFQRepr", src_NewFQRepr);
  ("FQRepr.Rsh", src_FQRepr_Rsh);
  ("FQRepr.Div2", src_FQRepr_Div2);
  ("FQRepr.Mul2", src_FQRepr_Mul2);
  ("FQRepr.Lsh", src_FQRepr_Lsh);
  ("FQRepr.AddNoCarry", src_FQRepr_AddNoCarry);
  ("FQRepr.SubNoBorrow", src_FQRepr_SubNoBorrow);
  ("FQRepr.Equals", src_FQRepr_Equals);
  ("FQRepr.Cmp", src_FQRepr_Cmp);
  ("FQRepr.Copy", src_FQRepr_Copy);
  ("FQRepr.String", src_FQRepr_String);
  ("FQRepr.BitLen", src_FQRepr_BitLen);
  ("FQReprFromBytes", src_FQReprFromBytes);
  ("FQRepr.Bytes", src_FQRepr_Bytes);
  ("FQRepr.Bit", src_FQRepr_Bit);
  ("FQReprFromString", src_FQReprFromString);
  ("fqReprFromHexUnchecked", src_fqReprFromHexUnchecked);
  ("fqReprFromStringUnchecked", src_fqReprFromStringUnchecked);
  ("FQRepr.ToBig", src_FQRepr_ToBig);
  ("FQReprFromBigInt", src_FQReprFromBigInt);
  ("fqReprFromBigIntUnchecked", src_fqReprFromBigIntUnchecked)].
Definition srcs_stub_fallback : list (string * func) := [
  ("MultiplyFQRepr", src_MultiplyFQRepr);
  ("MontReduce", src_MontReduce);
  ("AddNoCarry", src_AddNoCarry);
  ("SubNoBorrow", src_SubNoBorrow);
  ("AddWithCarry", src_AddWithCarry);
  ("SubWithBorrow", src_SubWithBorrow);
  ("MACWithCarry", src_MACWithCarry)].
Definition srcs_bititerator : list (string * func) := [
  ("NewBitIterator", src_NewBitIterator);
  ("BitIterator.Next", src_BitIterator_Next)].
Definition srcs_fq : list (string * func) := [
  ("FQ.Copy", src_FQ_Copy);
  ("FQ.IsValid", src_FQ_IsValid);
  ("FQ.reduceAssign", src_FQ_reduceAssign);
  ("FQReprToFQ", src_FQReprToFQ);
  ("FQReprToFQRaw", src_FQReprToFQRaw);
  ("FQ.AddAssign", src_FQ_AddAssign);
  ("FQ.montReduce", src_FQ_montReduce);
  ("FQ.MulAssign", src_FQ_MulAssign);
  ("FQ.SubAssign", src_FQ_SubAssign);
  ("FQ.DivAssign", src_FQ_DivAssign);
  ("FQ.Exp", src_FQ_Exp);
  ("FQ.Equals", src_FQ_Equals);
  ("FQ.NegAssign", src_FQ_NegAssign);
  ("FQ.String", src_FQ_String);
  ("FQ.Cmp", src_FQ_Cmp);
  ("FQ.DoubleAssign", src_FQ_DoubleAssign);
  ("FQ.IsZero", src_FQ_IsZero);
  ("FQ.SquareAssign", src_FQ_SquareAssign);
  ("FQ.Sqrt", src_FQ_Sqrt);
  ("isEven", src_isEven);
  ("FQ.Inverse", src_FQ_Inverse);
  ("FQ.Parity", src_FQ_Parity);
  ("FQ.MulBits", src_FQ_MulBits);
  ("FQ.MulBytes", src_FQ_MulBytes);
  ("HashFQ", src_HashFQ);
  ("FQ.Legendre", src_FQ_Legendre);
  ("FQ.ToRepr", src_FQ_ToRepr);
  ("RandFQ", src_RandFQ)].
Definition srcs_fq2 : list (string * func) := [
  ("NewFQ2", src_NewFQ2);
  ("FQ2.String", src_FQ2_String);
  ("FQ2.Cmp", src_FQ2_Cmp);
  ("FQ2.MultiplyByNonresidueAssign", src_FQ2_MultiplyByNonresidueAssign);
  ("FQ2.Norm", src_FQ2_Norm);
  ("FQ2.IsZero", src_FQ2_IsZero);
  ("FQ2.SquareAssign", src_FQ2_SquareAssign);
  ("FQ2.DoubleAssign", src_FQ2_DoubleAssign);
  ("FQ2.NegAssign", src_FQ2_NegAssign);
  ("FQ2.AddAssign", src_FQ2_AddAssign);
  ("FQ2.SubAssign", src_FQ2_SubAssign);
  ("FQ2.MulAssign", src_FQ2_MulAssign);
  ("FQ2.InverseAssign", src_FQ2_InverseAssign);
  ("FQ2.FrobeniusMapAssign", src_FQ2_FrobeniusMapAssign);
  ("FQ2.Legendre", src_FQ2_Legendre);
  ("FQ2.Exp", src_FQ2_Exp);
  ("FQ2.Equals", src_FQ2_Equals);
  ("FQ2.Sqrt", src_FQ2_Sqrt);
  ("FQ2.Copy", src_FQ2_Copy);
  ("RandFQ2", src_RandFQ2);
  ("FQ2.Parity", src_FQ2_Parity);
  ("FQ2.MulBits", src_FQ2_MulBits);
  ("FQ2.DivAssign", src_FQ2_DivAssign);
  ("HashFQ2", src_HashFQ2)].
Definition srcs_fq6 : list (string * func) := [
  ("NewFQ6", src_NewFQ6);
  ("FQ6.String", src_FQ6_String);
  ("FQ6.Copy", src_FQ6_Copy);
  ("FQ6.MulByNonresidueAssign", src_FQ6_MulByNonresidueAssign);
  ("FQ6.MulBy1Assign", src_FQ6_MulBy1Assign);
  ("FQ6.MulBy01Assign", src_FQ6_MulBy01Assign);
  ("FQ6.Equals", src_FQ6_Equals);
  ("FQ6.IsZero", src_FQ6_IsZero);
  ("FQ6.DoubleAssign", src_FQ6_DoubleAssign);
  ("FQ6.NegAssign", src_FQ6_NegAssign);
  ("FQ6.AddAssign", src_FQ6_AddAssign);
  ("FQ6.SubAssign", src_FQ6_SubAssign);
  ("FQ6.FrobeniusMapAssign", src_FQ6_FrobeniusMapAssign);
  ("FQ6.SquareAssign", src_FQ6_SquareAssign);
  ("FQ6.MulAssign", src_FQ6_MulAssign);
  ("FQ6.InverseAssign", src_FQ6_InverseAssign);
  ("FQ6.Exp", src_FQ6_Exp);
  ("RandFQ6", src_RandFQ6)].
Definition srcs_fq12 : list (string * func) := [
  ("NewFQ12", src_NewFQ12);
  ("FQ12.String", src_FQ12_String);
  ("FQ12.ConjugateAssign", src_FQ12_ConjugateAssign);
  ("FQ12.MulBy014Assign", src_FQ12_MulBy014Assign);
  ("FQ12.Equals", src_FQ12_Equals);
  ("FQ12.DoubleAssign", src_FQ12_DoubleAssign);
  ("FQ12.NegAssign", src_FQ12_NegAssign);
  ("FQ12.AddAssign", src_FQ12_AddAssign);
  ("FQ12.IsZero", src_FQ12_IsZero);
  ("FQ12.SubAssign", src_FQ12_SubAssign);
  ("RandFQ12", src_RandFQ12);
  ("FQ12.Copy", src_FQ12_Copy);
  ("FQ12.Exp", src_FQ12_Exp);
  ("FQ12.FrobeniusMapAssign", src_FQ12_FrobeniusMapAssign);
  ("FQ12.SquareAssign", src_FQ12_SquareAssign);
  ("FQ12.MulAssign", src_FQ12_MulAssign);
  ("FQ12.InverseAssign", src_FQ12_InverseAssign)].
Definition srcs_frrepr : list (string * func) := [
  ("FRRepr.IsOdd", src_FRRepr_IsOdd);
  ("FRRepr.IsEven", src_FRRepr_IsEven);
  ("FRRepr.IsZero", src_FRRepr_IsZero);
  ("NewFRRepr", src_NewFRRepr);
  ("FRRepr.Rsh", src_FRRepr_Rsh);
  ("FRRepr.Div2", src_FRRepr_Div2);
  ("FRRepr.Mul2", src_FRRepr_Mul2);
  ("FRRepr.Lsh", src_FRRepr_Lsh);
  ("FRRepr.AddNoCarry", src_FRRepr_AddNoCarry);
  ("FRRepr.SubNoBorrow", src_FRRepr_SubNoBorrow);
  ("FRRepr.Equals", src_FRRepr_Equals);
  ("FRRepr.Cmp", src_FRRepr_Cmp);
  ("FRRepr.Copy", src_FRRepr_Copy);
  ("FRRepr.String", src_FRRepr_String);
  ("FRRepr.BitLen", src_FRRepr_BitLen);
  ("FRReprFromBytes", src_FRReprFromBytes);
  ("FRRepr.Bytes", src_FRRepr_Bytes);
  ("FRRepr.Bit", src_FRRepr_Bit);
  ("FRReprFromString", src_FRReprFromString);
  ("FRRepr.ToBig", src_FRRepr_ToBig);
  ("FRReprFromBigInt", src_FRReprFromBigInt);
  ("FRRepr.ToFQ", src_FRRepr_ToFQ)].
Definition srcs_fr : list (string * func) := [
  ("FR.IsValid", src_FR_IsValid);
  ("FR.reduceAssign", src_FR_reduceAssign);
  ("FR.Copy", src_FR_Copy);
  ("FRReprToFR", src_FRReprToFR);
  ("FR.AddAssign", src_FR_AddAssign);
  ("FR.montReduce", src_FR_montReduce);
  ("FR.MulAssign", src_FR_MulAssign);
  ("FR.SubAssign", src_FR_SubAssign);
  ("FR.Exp", src_FR_Exp);
  ("FR.Equals", src_FR_Equals);
  ("FR.NegAssign", src_FR_NegAssign);
  ("FR.String", src_FR_String);
  ("FR.Cmp", src_FR_Cmp);
  ("FR.DoubleAssign", src_FR_DoubleAssign);
  ("FR.IsZero", src_FR_IsZero);
  ("FR.SquareAssign", src_FR_SquareAssign);
  ("FR.Sqrt", src_FR_Sqrt);
  ("FR.Inverse", src_FR_Inverse);
  ("FR.Parity", src_FR_Parity);
  ("FR.MulBits", src_FR_MulBits);
  ("FR.MulBytes", src_FR_MulBytes);
  ("HashFR", src_HashFR);
  ("FR.Legendre", src_FR_Legendre);
  ("FR.ToRepr", src_FR_ToRepr);
  ("FR.Bytes", src_FR_Bytes);
  ("RandFR", src_RandFR)].
Definition srcs_g1 : list (string * func) := [
  ("NewG1Affine", src_NewG1Affine);
  ("G1Affine.String", src_G1Affine_String);
  ("G1Affine.Copy", src_G1Affine_Copy);
  ("G1Affine.IsZero", src_G1Affine_IsZero);
  ("G1Affine.NegAssign", src_G1Affine_NegAssign);
  ("G1Affine.ToProjective", src_G1Affine_ToProjective);
  ("G1Affine.Mul", src_G1Affine_Mul);
  ("G1Affine.MulFR", src_G1Affine_MulFR);
  ("G1Affine.IsOnCurve", src_G1Affine_IsOnCurve);
  ("GetG1PointFromX", src_GetG1PointFromX);
  ("G1Affine.IsInCorrectSubgroupAssumingOnCurve", src_G1Affine_IsInCorrectSubgroupAssumingOnCurve);
  ("G1Affine.ScaleByCofactor", src_G1Affine_ScaleByCofactor);
  ("G1Affine.Equals", src_G1Affine_Equals);
  ("G1Affine.SerializeBytes", src_G1Affine_SerializeBytes);
  ("G1Affine.SetRawBytes", src_G1Affine_SetRawBytes);
  ("DecompressG1", src_DecompressG1);
  ("DecompressG1Unchecked", src_DecompressG1Unchecked);
  ("CompressG1", src_CompressG1);
  ("G1Projective.NegAssign", src_G1Projective_NegAssign);
  ("NewG1Projective", src_NewG1Projective);
  ("G1Projective.String", src_G1Projective_String);
  ("G1Projective.Copy", src_G1Projective_Copy);
  ("G1Projective.IsZero", src_G1Projective_IsZero);
  ("G1Projective.Equal", src_G1Projective_Equal);
  ("G1Projective.ToAffine", src_G1Projective_ToAffine);
  ("G1Projective.Double", src_G1Projective_Double);
  ("G1Projective.Add", src_G1Projective_Add);
  ("G1Projective.AddAffine", src_G1Projective_AddAffine);
  ("G1Projective.Mul", src_G1Projective_Mul);
  ("G1Projective.MulFR", src_G1Projective_MulFR);
  ("RandG1", src_RandG1);
  ("signFQ", src_signFQ);
  ("optimizedSWUMapHelper", src_optimizedSWUMapHelper)].
Definition srcs_g2 : list (string * func) := [
  ("NewG2Affine", src_NewG2Affine);
  ("G2Affine.String", src_G2Affine_String);
  ("G2Affine.Copy", src_G2Affine_Copy);
  ("G2Affine.IsZero", src_G2Affine_IsZero);
  ("G2Affine.NegAssign", src_G2Affine_NegAssign);
  ("G2Affine.ToProjective", src_G2Affine_ToProjective);
  ("G2Affine.Mul", src_G2Affine_Mul);
  ("G2Affine.MulFR", src_G2Affine_MulFR);
  ("G2Affine.MulBig", src_G2Affine_MulBig);
  ("G2Affine.IsOnCurve", src_G2Affine_IsOnCurve);
  ("G2Affine.ScaleByCofactor", src_G2Affine_ScaleByCofactor);
  ("G2Affine.Equals", src_G2Affine_Equals);
  ("GetG2PointFromX", src_GetG2PointFromX);
  ("G2Affine.SerializeBytes", src_G2Affine_SerializeBytes);
  ("G2Affine.SetRawBytes", src_G2Affine_SetRawBytes);
  ("DecompressG2", src_DecompressG2);
  ("DecompressG2Unchecked", src_DecompressG2Unchecked);
  ("CompressG2", src_CompressG2);
  ("G2Affine.IsInCorrectSubgroupAssumingOnCurve", src_G2Affine_IsInCorrectSubgroupAssumingOnCurve);
  ("NewG2Projective", src_NewG2Projective);
  ("G2Projective.String", src_G2Projective_String);
  ("G2Projective.Copy", src_G2Projective_Copy);
  ("G2Projective.IsZero", src_G2Projective_IsZero);
  ("G2Projective.Equals", src_G2Projective_Equals);
  ("G2Projective.ToAffine", src_G2Projective_ToAffine);
  ("G2Projective.Double", src_G2Projective_Double);
  ("G2Projective.Add", src_G2Projective_Add);
  ("G2Projective.AddAffine", src_G2Projective_AddAffine);
  ("G2Projective.Mul", src_G2Projective_Mul);
  ("G2Projective.MulFR", src_G2Projective_MulFR);
  ("G2Prepared.IsZero", src_G2Prepared_IsZero);
  ("G2AffineToPrepared", src_G2AffineToPrepared);
  ("RandG2", src_RandG2);
  ("SWEncodeG2", src_SWEncodeG2);
  ("signFQ2", src_signFQ2);
  ("OptimizedSWU2MapHelper", src_OptimizedSWU2MapHelper);
  ("hashFunc", src_hashFunc);
  ("HashG2WithDomain", src_HashG2WithDomain)].
Definition srcs_pairing : list (string * func) := [
  ("MillerLoop", src_MillerLoop);
  ("FinalExponentiation", src_FinalExponentiation);
  ("Pairing", src_Pairing);
  ("CompareTwoPairings", src_CompareTwoPairings)].
Definition srcs_hash : list (string * func) := [
  ("HashSecretKey", src_HashSecretKey);
  ("hp", src_hp);
  ("hp2", src_hp2);
  ("iso11", src_iso11);
  ("iso3", src_iso3);
  ("ClearH", src_ClearH);
  ("optimizedSWUMap", src_optimizedSWUMap);
  ("HashG1", src_HashG1);
  ("psi", src_psi);
  ("clearH2", src_clearH2);
  ("optimizedSWUMap2", src_optimizedSWUMap2);
  ("HashG2", src_HashG2)].
Definition srcs_g1pubs_bls : list (string * func) := [
  ("g1pubs/Signature.Serialize", src_g1pubs_Signature_Serialize);
  ("g1pubs/Signature.String", src_g1pubs_Signature_String);
  ("g1pubs/Signature.GetPoint", src_g1pubs_Signature_GetPoint);
  ("g1pubs/NewSignatureFromG2", src_g1pubs_NewSignatureFromG2);
  ("g1pubs/DeserializeSignature", src_g1pubs_DeserializeSignature);
  ("g1pubs/Signature.Copy", src_g1pubs_Signature_Copy);
  ("g1pubs/PublicKey.String", src_g1pubs_PublicKey_String);
  ("g1pubs/PublicKey.GetPoint", src_g1pubs_PublicKey_GetPoint);
  ("g1pubs/PublicKey.Serialize", src_g1pubs_PublicKey_Serialize);
  ("g1pubs/NewPublicKeyFromG1", src_g1pubs_NewPublicKeyFromG1);
  ("g1pubs/concatAppend", src_g1pubs_concatAppend);
  ("g1pubs/PublicKey.Equals", src_g1pubs_PublicKey_Equals);
  ("g1pubs/DeserializePublicKey", src_g1pubs_DeserializePublicKey);
  ("g1pubs/SecretKey.GetFRElement", src_g1pubs_SecretKey_GetFRElement);
  ("g1pubs/SecretKey.String", src_g1pubs_SecretKey_String);
  ("g1pubs/SecretKey.Serialize", src_g1pubs_SecretKey_Serialize);
  ("g1pubs/DeserializeSecretKey", src_g1pubs_DeserializeSecretKey);
  ("g1pubs/DeriveSecretKey", src_g1pubs_DeriveSecretKey);
  ("g1pubs/Sign", src_g1pubs_Sign);
  ("g1pubs/SignWithDomain", src_g1pubs_SignWithDomain);
  ("g1pubs/PrivToPub", src_g1pubs_PrivToPub);
  ("g1pubs/RandKey", src_g1pubs_RandKey);
  ("g1pubs/KeyFromFQRepr", src_g1pubs_KeyFromFQRepr);
  ("g1pubs/Verify", src_g1pubs_Verify);
  ("g1pubs/VerifyWithDomain", src_g1pubs_VerifyWithDomain);
  ("g1pubs/AggregateSignatures", src_g1pubs_AggregateSignatures);
  ("g1pubs/Signature.Aggregate", src_g1pubs_Signature_Aggregate);
  ("g1pubs/AggregatePublicKeys", src_g1pubs_AggregatePublicKeys);
  ("g1pubs/PublicKey.Aggregate", src_g1pubs_PublicKey_Aggregate);
  ("g1pubs/PublicKey.Copy", src_g1pubs_PublicKey_Copy);
  ("g1pubs/NewAggregateSignature", src_g1pubs_NewAggregateSignature);
  ("g1pubs/NewAggregatePubkey", src_g1pubs_NewAggregatePubkey);
  ("g1pubs/sortableByteArray.Len", src_g1pubs_sortableByteArray_Len);
  ("g1pubs/sortableByteArray.Less", src_g1pubs_sortableByteArray_Less);
  ("g1pubs/sortableByteArray.Swap", src_g1pubs_sortableByteArray_Swap);
  ("g1pubs/sortByteArrays", src_g1pubs_sortByteArrays);
  ("g1pubs/Signature.VerifyAggregate", src_g1pubs_Signature_VerifyAggregate);
  ("g1pubs/Signature.VerifyAggregateCommon", src_g1pubs_Signature_VerifyAggregateCommon);
  ("g1pubs/Signature.VerifyAggregateCommonWithDomain", src_g1pubs_Signature_VerifyAggregateCommonWithDomain);
  ("g1pubs/Signature.VerifyAggregateWithDomain", src_g1pubs_Signature_VerifyAggregateWithDomain)].
Definition srcs_g2pubs_bls : list (string * func) := [
  ("g2pubs/Signature.Serialize", src_g2pubs_Signature_Serialize);
  ("g2pubs/Signature.String", src_g2pubs_Signature_String);
  ("g2pubs/NewSignatureFromG1", src_g2pubs_NewSignatureFromG1);
  ("g2pubs/DeserializeSignature", src_g2pubs_DeserializeSignature);
  ("g2pubs/Signature.Copy", src_g2pubs_Signature_Copy);
  ("g2pubs/Signature.GetPoint", src_g2pubs_Signature_GetPoint);
  ("g2pubs/PublicKey.GetPoint", src_g2pubs_PublicKey_GetPoint);
  ("g2pubs/PublicKey.String", src_g2pubs_PublicKey_String);
  ("g2pubs/PublicKey.Serialize", src_g2pubs_PublicKey_Serialize);
  ("g2pubs/NewPublicKeyFromG2", src_g2pubs_NewPublicKeyFromG2);
  ("g2pubs/concatAppend", src_g2pubs_concatAppend);
  ("g2pubs/PublicKey.Equals", src_g2pubs_PublicKey_Equals);
  ("g2pubs/DeserializePublicKey", src_g2pubs_DeserializePublicKey);
  ("g2pubs/SecretKey.GetFRElement", src_g2pubs_SecretKey_GetFRElement);
  ("g2pubs/SecretKey.String", src_g2pubs_SecretKey_String);
  ("g2pubs/SecretKey.Serialize", src_g2pubs_SecretKey_Serialize);
  ("g2pubs/DeserializeSecretKey", src_g2pubs_DeserializeSecretKey);
  ("g2pubs/DeriveSecretKey", src_g2pubs_DeriveSecretKey);
  ("g2pubs/Sign", src_g2pubs_Sign);
  ("g2pubs/PrivToPub", src_g2pubs_PrivToPub);
  ("g2pubs/RandKey", src_g2pubs_RandKey);
  ("g2pubs/KeyFromFQRepr", src_g2pubs_KeyFromFQRepr);
  ("g2pubs/Verify", src_g2pubs_Verify);
  ("g2pubs/AggregateSignatures", src_g2pubs_AggregateSignatures);
  ("g2pubs/Signature.Aggregate", src_g2pubs_Signature_Aggregate);
  ("g2pubs/AggregatePublicKeys", src_g2pubs_AggregatePublicKeys);
  ("g2pubs/PublicKey.Aggregate", src_g2pubs_PublicKey_Aggregate);
  ("g2pubs/PublicKey.Copy", src_g2pubs_PublicKey_Copy);
  ("g2pubs/NewAggregateSignature", src_g2pubs_NewAggregateSignature);
  ("g2pubs/NewAggregatePubkey", src_g2pubs_NewAggregatePubkey);
  ("g2pubs/sortableByteArray.Len", src_g2pubs_sortableByteArray_Len);
  ("g2pubs/sortableByteArray.Less", src_g2pubs_sortableByteArray_Less);
  ("g2pubs/sortableByteArray.Swap", src_g2pubs_sortableByteArray_Swap);
  ("g2pubs/sortByteArrays", src_g2pubs_sortByteArrays);
  ("g2pubs/Signature.VerifyAggregate", src_g2pubs_Signature_VerifyAggregate);
  ("g2pubs/Signature.VerifyAggregateCommon", src_g2pubs_Signature_VerifyAggregateCommon)].
(* not translated: [] *)
