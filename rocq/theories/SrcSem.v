(** A meaning for the syntax trees of [SrcAst].

    A function is run statement by statement on an environment of nested scopes. A variable holds a value; a pointer is represented
    by the value it points to, so that a method with a pointer receiver is a call that replaces the value of its receiver expression.
    This is right as long as two live pointers never lead to the same object. Assignments that would create a second pointer to an
    object ([x := y], [x = y] or [T{y}] with [y] a variable or field that holds a pointer, without Copy) therefore take the object away from
    [y]: a later use of [y] makes the run fail. (Sharing between objects of different calls is the subject of the memory models
    ModelFrHeap, ModelQ12Heap, ModelPtHeap and ModelObjHeap.)

    A call whose argument is the receiver itself, x.M(x), is a call of another name, "T.M=": the method may read through the argument
    what it has written through the receiver.

    What a call of another function or method does is a parameter [call]: it goes on with a list of values and, for every argument
    (the receiver is argument 0) that the callee changes, its new value; or it ends the run with a panic. [glob] gives the package variables.

    The interpreter is written in continuation-passing style: after a test the rest of the run appears under both branches. *)
Require Import ZArith Bool String List Ascii.
From Verif Require Import Words ModelRepr ModelFq ModelFr ModelOps ModelTower ModelCurve ModelPairing SrcAst.
Import ListNotations.
Open Scope Z_scope.

Inductive V (F : Type) : Type :=
| VB (b : bool)
| VI (z : Z)                      (* int, or an untyped constant *)
| VU (w z : Z)                    (* an unsigned integer of w bits *)
| VN                              (* nil *)
| VErr                            (* an error that is not nil *)
| VMoved                          (* a variable whose object has been assigned elsewhere *)
| VStr (s : string)
| VBig (z : Z)                    (* *big.Int *)
| VF (x : F)                      (* FQ *)
| V2 (x : FQ2 F) | V6 (x : FQ6 F) | V12 (x : FQ12 F)
| VA1 (p : Affine F) | VP1 (p : Proj F) | VA2 (p : Affine (FQ2 F)) | VP2 (p : Proj (FQ2 F))
| VR (r : FQRepr)                 (* FQRepr and [6]uint64 *)
| VRr (r : FRRepr)                (* FRRepr *)
| VFR (x : FR)                    (* FR *)
| VBI (b : BitIterator)           (* BitIterator *)
| VBy (l : list Z)                (* []byte and [n]byte *)
| VLF (l : list F) | VL2 (l : list (FQ2 F))    (* []FQ, []FQ2 *)
| VL3 (l : list (FQ2 F * FQ2 F * FQ2 F))       (* [][3]FQ2 *)
| VPI (l : list (option (Affine F) * list (FQ2 F * FQ2 F * FQ2 F) * Z))  (* []pairingItem *)
| VMI (l : list (Affine F * G2Prepared F))     (* []MillerLoopItem *)
| VLB (l : list (list Z))          (* [][]byte, [][32]byte, sortableByteArray *)
| VLP1 (t f : string) (l : list (Proj F)) | VLP2 (t f : string) (l : list (Proj (FQ2 F)))  (* []*T, T a struct with the one field f *)
| VL (l : list (V F))             (* other slices and arrays *)
| VS (t : string) (fs : list (string * V F))   (* other structs *)
| VFun (ps rs : list (string * string)) (b : list stmt).  (* a function literal *)
Arguments VB {F}. Arguments VI {F}. Arguments VU {F}. Arguments VN {F}. Arguments VErr {F}. Arguments VMoved {F}.
Arguments VStr {F}. Arguments VBig {F}. Arguments VF {F}. Arguments V2 {F}. Arguments V6 {F}. Arguments V12 {F}.
Arguments VA1 {F}. Arguments VP1 {F}. Arguments VA2 {F}. Arguments VP2 {F}. Arguments VR {F}. Arguments VRr {F}. Arguments VFR {F}. Arguments VBI {F}.
Arguments VBy {F}. Arguments VLF {F}. Arguments VL2 {F}. Arguments VL3 {F}. Arguments VPI {F}. Arguments VMI {F}. Arguments VLB {F}. Arguments VLP1 {F}. Arguments VLP2 {F}. Arguments VL {F}. Arguments VS {F}. Arguments VFun {F}.

(** The outcome of a run: the final values of the parameters and the results; a panic; or a construct the semantics does not cover. *)
Inductive outcome (F : Type) : Type :=
| Done (params results : list (V F))
| Panic
| Stuck.
Arguments Done {F}. Arguments Panic {F}. Arguments Stuck {F}.

(** The results of partial operations. *)
Inductive step (A : Type) : Type := Ok (a : A) | Pan | Stk.
Arguments Ok {A}. Arguments Pan {A}. Arguments Stk {A}.
Definition obind {A C} (o : step A) (k : A -> step C) : step C := match o with Ok a => k a | Pan => Pan | Stk => Stk end.

Definition lift {A} (o : option A) : step A := match o with Some a => Ok a | None => Stk end.

(** Fields and elements of the value found behind a path: x.f, x[i], x[lo:hi]. *)
Inductive sel : Set := SelF (f : string) | SelI (i : Z) | SelR (lo : Z) (hi : option Z).

(** Tests on widths and indices (apart from the tests of the program). *)
Definition same (a b : Z) : bool := match a ?= b with Eq => true | _ => false end.
Definition less (a b : Z) : bool := match a ?= b with Lt => true | _ => false end.
(** Integers: arithmetic of the given width; an untyped constant takes the type of the other operand. *)
Definition trunc (w z : Z) : Z := if same w 64 then wlo z else z mod 2 ^ w.

Definition wsub (a b : Z) : Z := wlo (a - b).
(** comparisons of unsigned integers *)
Definition weqb (a b : Z) : bool := a =? b.
Definition wltb (a b : Z) : bool := a <? b.
Definition wleb (a b : Z) : bool := a <=? b.
(** int: the numbers that the package computes with int are lengths and indices, far from the bounds of the type *)
Definition iadd (a b : Z) : Z := a + b.
Definition isub (a b : Z) : Z := a - b.

Section Sem.
Context {F : Type}.
(** The field n of an FQ: how to read it, when F is the model of FQ by limbs, and how to make an FQ from it. *)
Context (limbs : option (F -> FQRepr) * (FQRepr -> F)).
Context (zeroF : F).
Context (glob : string -> option (V F)).
Context (call : string -> list (V F) -> (list (nat * V F) * list (V F) -> outcome F) -> outcome F).
Notation V := (V F).

Fixpoint assoc {A} (x : string) (l : list (string * A)) : option A :=
  match l with [] => None | (y, a) :: r => if String.eqb x y then Some a else assoc x r end.
Fixpoint assoc_set {A} (x : string) (a : A) (l : list (string * A)) : option (list (string * A)) :=
  match l with
  | [] => None
  | (y, b) :: r => if String.eqb x y then Some ((y, a) :: r) else option_map (cons (y, b)) (assoc_set x a r)
  end.

Definition getf (f : string) (v : V) : step V :=
  match v with
  | VF x => if String.eqb f "n" then match fst limbs with Some g => Ok (VR (g x)) | None => Stk end else Stk
  | V2 x => if String.eqb f "c0" then Ok (VF (c0 x)) else if String.eqb f "c1" then Ok (VF (c1 x)) else Stk
  | V6 x => if String.eqb f "c0" then Ok (V2 (d0 x)) else if String.eqb f "c1" then Ok (V2 (d1 x)) else if String.eqb f "c2" then Ok (V2 (d2 x)) else Stk
  | V12 x => if String.eqb f "c0" then Ok (V6 (e0 x)) else if String.eqb f "c1" then Ok (V6 (e1 x)) else Stk
  | VA1 p => if String.eqb f "x" then Ok (VF (ax p)) else if String.eqb f "y" then Ok (VF (ay p)) else if String.eqb f "infinity" then Ok (VB (ainf p)) else Stk
  | VA2 p => if String.eqb f "x" then Ok (V2 (ax p)) else if String.eqb f "y" then Ok (V2 (ay p)) else if String.eqb f "infinity" then Ok (VB (ainf p)) else Stk
  | VP1 p => if String.eqb f "x" then Ok (VF (px p)) else if String.eqb f "y" then Ok (VF (py p)) else if String.eqb f "z" then Ok (VF (pz p)) else Stk
  | VP2 p => if String.eqb f "x" then Ok (V2 (px p)) else if String.eqb f "y" then Ok (V2 (py p)) else if String.eqb f "z" then Ok (V2 (pz p)) else Stk
  | VFR x => if String.eqb f "n" then Ok (VRr (fr_n x)) else Stk
  | VBI b => if String.eqb f "arr" then Ok (VL (map (VU 64) (bi_arr b))) else if String.eqb f "n" then Ok (VU 64 (bi_n b)) else Stk
  | VS _ fs => lift (assoc f fs)
  | VN => Pan
  | _ => Stk
  end.
Definition setf (f : string) (v a : V) : step V :=
  match v, a with
  | VF _, VR r => if String.eqb f "n" then Ok (VF (snd limbs r)) else Stk
  | V2 x, VF y => if String.eqb f "c0" then Ok (V2 (mkFQ2 y (c1 x))) else if String.eqb f "c1" then Ok (V2 (mkFQ2 (c0 x) y)) else Stk
  | V6 x, V2 y => if String.eqb f "c0" then Ok (V6 (mkFQ6 y (d1 x) (d2 x))) else if String.eqb f "c1" then Ok (V6 (mkFQ6 (d0 x) y (d2 x)))
                  else if String.eqb f "c2" then Ok (V6 (mkFQ6 (d0 x) (d1 x) y)) else Stk
  | V12 x, V6 y => if String.eqb f "c0" then Ok (V12 (mkFQ12 y (e1 x))) else if String.eqb f "c1" then Ok (V12 (mkFQ12 (e0 x) y)) else Stk
  | V12 x, VMoved => if String.eqb f "c0" then Ok (VS "FQ12" [("c0", VMoved); ("c1", V6 (e1 x))]%string)
                     else if String.eqb f "c1" then Ok (VS "FQ12" [("c0", V6 (e0 x)); ("c1", VMoved)]%string) else Stk
  | VBI b, VU 64 n => if String.eqb f "n" then Ok (VBI (mkBI (bi_arr b) n)) else Stk
  | VA1 p, VF y => if String.eqb f "x" then Ok (VA1 (mkAff y (ay p) (ainf p))) else if String.eqb f "y" then Ok (VA1 (mkAff (ax p) y (ainf p))) else Stk
  | VA2 p, V2 y => if String.eqb f "x" then Ok (VA2 (mkAff y (ay p) (ainf p))) else if String.eqb f "y" then Ok (VA2 (mkAff (ax p) y (ainf p))) else Stk
  | VP1 p, VF y => if String.eqb f "x" then Ok (VP1 (mkProj y (py p) (pz p))) else if String.eqb f "y" then Ok (VP1 (mkProj (px p) y (pz p)))
                   else if String.eqb f "z" then Ok (VP1 (mkProj (px p) (py p) y)) else Stk
  | VP2 p, V2 y => if String.eqb f "x" then Ok (VP2 (mkProj y (py p) (pz p))) else if String.eqb f "y" then Ok (VP2 (mkProj (px p) y (pz p)))
                   else if String.eqb f "z" then Ok (VP2 (mkProj (px p) (py p) y)) else Stk
  | VFR _, VRr r => if String.eqb f "n" then Ok (VFR (mkFR r)) else Stk
  | VS t fs, _ => match assoc_set f a fs with Some fs' => Ok (VS t fs') | None => Stk end
  | VN, _ => Pan
  | _, _ => Stk
  end.
Definition lnth {A} (l : list A) (i : Z) : step A :=
  if less i 0 then Pan else match nth_error l (Z.to_nat i) with Some a => Ok a | None => Pan end.
Fixpoint lupd {A} (l : list A) (n : nat) (a : A) : option (list A) :=
  match l, n with
  | [], _ => None
  | _ :: r, O => Some (a :: r)
  | b :: r, S k => option_map (cons b) (lupd r k a)
  end.
(** The structs of pairing.go. *)
Definition prepV (q : G2Prepared F) : V := VS "G2Prepared" [("coeffs", VL3 (coeffs q)); ("infinity", VB (pinf q))]%string.
Definition itemV (it : Affine F * G2Prepared F) : V := VS "MillerLoopItem" [("P", VA1 (fst it)); ("Q", prepV (snd it))]%string.
Definition piV (it : option (Affine F) * list (FQ2 F * FQ2 F * FQ2 F) * Z) : V :=
  VS "pairingItem" [("p", match fst (fst it) with Some p => VA1 p | None => VN end); ("q", VL3 (snd (fst it))); ("qIndex", VI (snd it))]%string.
Definition vprep (v : V) : option (G2Prepared F) :=
  match v with VS t [(_, VL3 c); (_, VB b)] => if String.eqb t "G2Prepared" then Some (mkPrep c b) else None | _ => None end.
Definition vitem (v : V) : option (Affine F * G2Prepared F) :=
  match v with VS t [(_, VA1 p); (_, q)] => if String.eqb t "MillerLoopItem" then match vprep q with Some q => Some (p, q) | None => None end else None | _ => None end.
Definition nilp (v : V) : option (Affine F) := match v with VA1 p => Some p | _ => None end.
Definition is_nilp (v : V) : bool := match v with VA1 _ | VN => true | _ => false end.
Definition geti (i : Z) (v : V) : step V :=
  match v with
  | VR r => if same i 0 then Ok (VU 64 (w0 r)) else if same i 1 then Ok (VU 64 (w1 r)) else if same i 2 then Ok (VU 64 (w2 r))
            else if same i 3 then Ok (VU 64 (w3 r)) else if same i 4 then Ok (VU 64 (w4 r)) else if same i 5 then Ok (VU 64 (w5 r)) else Pan
  | VRr r => if same i 0 then Ok (VU 64 (v0 r)) else if same i 1 then Ok (VU 64 (v1 r)) else if same i 2 then Ok (VU 64 (v2 r))
             else if same i 3 then Ok (VU 64 (v3 r)) else Pan
  | VBy l => obind (lnth l i) (fun z => Ok (VU 8 z))
  | VL l => lnth l i
  | _ => Stk
  end.
(** x[i], in the style of the interpreter: an index that is not known leaves one test *)
Definition inr {A} (i : Z) (l : list A) : bool := negb (less i 0) && less i (Z.of_nat (length l)).
Definition getik (i : Z) (v : V) (k : V -> outcome F) : outcome F :=
  match v with
  | VLF l => if inr i l then k (VF (nth (Z.to_nat i) l zeroF)) else Panic
  | VL2 l => if inr i l then k (V2 (nth (Z.to_nat i) l (mkFQ2 zeroF zeroF))) else Panic
  | VL3 l => if inr i l then
               let z := mkFQ2 zeroF zeroF in
               let c := nth (Z.to_nat i) l (z, z, z) in k (VL [V2 (fst (fst c)); V2 (snd (fst c)); V2 (snd c)])
             else Panic
  | VPI l => if inr i l then k (piV (nth (Z.to_nat i) l (None, [], 0))) else Panic
  | VLB l => if inr i l then k (VBy (nth (Z.to_nat i) l [])) else Panic
  | VLP1 t f l => if inr i l then k (VS t [(f, VP1 (nth (Z.to_nat i) l (mkProj zeroF zeroF zeroF)))]) else Panic
  | VLP2 t f l => let z := mkFQ2 zeroF zeroF in if inr i l then k (VS t [(f, VP2 (nth (Z.to_nat i) l (mkProj z z z)))]) else Panic
  | _ => match geti i v with Ok a => k a | Pan => Panic | Stk => Stuck end
  end.
Definition seti (i : Z) (v a : V) : step V :=
  match v, a with
  | VR (mkFQRepr a0 a1 a2 a3 a4 a5), (VU 64 z | VI z) =>
      if same i 0 then Ok (VR (mkFQRepr z a1 a2 a3 a4 a5)) else if same i 1 then Ok (VR (mkFQRepr a0 z a2 a3 a4 a5))
      else if same i 2 then Ok (VR (mkFQRepr a0 a1 z a3 a4 a5)) else if same i 3 then Ok (VR (mkFQRepr a0 a1 a2 z a4 a5))
      else if same i 4 then Ok (VR (mkFQRepr a0 a1 a2 a3 z a5)) else if same i 5 then Ok (VR (mkFQRepr a0 a1 a2 a3 a4 z)) else Pan
  | VRr (mkFRRepr a0 a1 a2 a3), (VU 64 z | VI z) =>
      if same i 0 then Ok (VRr (mkFRRepr z a1 a2 a3)) else if same i 1 then Ok (VRr (mkFRRepr a0 z a2 a3))
      else if same i 2 then Ok (VRr (mkFRRepr a0 a1 z a3)) else if same i 3 then Ok (VRr (mkFRRepr a0 a1 a2 z)) else Pan
  | VBy l, VU 8 z => if less i 0 then Pan else match lupd l (Z.to_nat i) z with Some l' => Ok (VBy l') | None => Pan end
  | VL l, _ => if less i 0 then Pan else match lupd l (Z.to_nat i) a with Some l' => Ok (VL l') | None => Pan end
  | _, _ => Stk
  end.
Fixpoint upd {A} (l : list A) (n : nat) (a : A) : list A :=
  match l, n with [], _ => [] | _ :: r, O => a :: r | b :: r, S k => b :: upd r k a end.
Definition setik (i : Z) (v a : V) (k : V -> outcome F) : outcome F :=
  match v with
  | VPI l => match a with
             | VS t [(_, p); (_, VL3 q); (_, VI j)] =>
                 if String.eqb t "pairingItem" then if inr i l then if is_nilp p then k (VPI (upd l (Z.to_nat i) (nilp p, q, j))) else Stuck else Panic else Stuck
             | _ => Stuck
             end
  | VLF l => match a with VF x => if inr i l then k (VLF (upd l (Z.to_nat i) x)) else Panic | _ => Stuck end
  | VL2 l => match a with V2 x => if inr i l then k (VL2 (upd l (Z.to_nat i) x)) else Panic | _ => Stuck end
  | VLB l => match a with VBy m => if inr i l then k (VLB (upd l (Z.to_nat i) m)) else Panic | _ => Stuck end
  | _ => match seti i v a with Ok a => k a | Pan => Panic | Stk => Stuck end
  end.
(** x[lo:hi]; assigning to such a path happens when a callee writes through the slice. *)
Definition getr (lo : Z) (hi : option Z) (v : V) : step V :=
  match v with
  | VBy l => let h := match hi with Some h => h | None => Z.of_nat (length l) end in
             if match hi with None => same lo 0 | _ => false end then Ok v
             else if less lo 0 || less h lo || less (Z.of_nat (length l)) h then Pan
             else Ok (VBy (firstn (Z.to_nat (h - lo)) (skipn (Z.to_nat lo) l)))
  | VR r => match hi with None => if same lo 0 then Ok (VL (map (VU 64) (FQRepr_slice r))) else Stk | _ => Stk end
  | VRr r => match hi with None => if same lo 0 then Ok (VL (map (VU 64) [v0 r; v1 r; v2 r; v3 r])) else Stk | _ => Stk end
  | _ => Stk
  end.
Definition setr (lo : Z) (hi : option Z) (v a : V) : step V :=
  match v, a with
  | VBy l, VBy m => let h := match hi with Some h => h | None => Z.of_nat (length l) end in
             if less lo 0 || less h lo || less (Z.of_nat (length l)) h || negb (same (Z.of_nat (length m)) (h - lo)) then Pan
             else Ok (VBy (firstn (Z.to_nat lo) l ++ m ++ skipn (Z.to_nat h) l))
  | VRr r, VL [VU 64 a0; VU 64 a1; VU 64 a2; VU 64 a3] => match hi with None => if same lo 0 then Ok (VRr (mkFRRepr a0 a1 a2 a3)) else Stk | _ => Stk end
  | _, _ => Stk
  end.
Fixpoint getp (ss : list sel) (v : V) : step V :=
  match ss with
  | [] => Ok v
  | SelF f :: r => obind (getf f v) (getp r)
  | SelI i :: r => obind (geti i v) (getp r)
  | SelR lo hi :: r => obind (getr lo hi v) (getp r)
  end.
Definition on {A} (s : step A) (k : A -> outcome F) : outcome F := match s with Ok a => k a | Pan => Panic | Stk => Stuck end.
Fixpoint setp (ss : list sel) (v a : V) (k : V -> outcome F) : outcome F :=
  match ss with
  | [] => k a
  | SelF f :: r => on (getf f v) (fun w => setp r w a (fun w' => on (setf f v w') k))
  | SelI i :: r => getik i v (fun w => setp r w a (fun w' => setik i v w' k))
  | SelR lo hi :: r => on (getr lo hi v) (fun w => setp r w a (fun w' => on (setr lo hi v w') k))
  end.

(** ** Operators *)
Definition arith (op : string) (a b : Z) (wd : option Z) : step V :=
  let mk z := match wd with Some w => VU w (trunc w z) | None => VI z end in
  let raw z := match wd with Some w => VU w z | None => VI z end in
  if String.eqb op "+" then Ok (match wd with Some 64 => VU 64 (wadd a b) | Some _ => mk (a + b) | None => VI (iadd a b) end)
  else if String.eqb op "-" then Ok (match wd with Some 64 => VU 64 (wsub a b) | Some _ => mk (a - b) | None => VI (isub a b) end)
  else if String.eqb op "*" then Ok (match wd with Some 64 => VU 64 (wmul a b) | _ => mk (a * b) end)
  else if String.eqb op "/" then if same b 0 then Pan else Ok (match wd with Some _ => raw (a / b) | None => raw (Z.quot a b) end)
  else if String.eqb op "%" then if same b 0 then Pan else Ok (match wd with Some _ => raw (a mod b) | None => raw (Z.rem a b) end)
  else if String.eqb op "&" then Ok (raw (wand a b))
  else if String.eqb op "|" then Ok (raw (wor a b))
  else if String.eqb op "==" then Ok (VB (match wd with Some _ => weqb a b | None => a =? b end))
  else if String.eqb op "!=" then Ok (VB (negb (match wd with Some _ => weqb a b | None => a =? b end)))
  else if String.eqb op "<" then Ok (VB (match wd with Some _ => wltb a b | None => a <? b end))
  else if String.eqb op "<=" then Ok (VB (match wd with Some _ => wleb a b | None => a <=? b end))
  else if String.eqb op ">" then Ok (VB (match wd with Some _ => wltb b a | None => b <? a end))
  else if String.eqb op ">=" then Ok (VB (match wd with Some _ => wleb b a | None => b <=? a end))
  else Stk.
Definition isnil (v : V) : option bool :=
  match v with
  | VN => Some true
  | VErr | V6 _ | V12 _ | VA1 _ | VP1 _ | VA2 _ | VP2 _ | VFR _ | VRr _ | VS _ _ | VF _ | V2 _ => Some false
  | _ => None
  end.
Definition bin (op : string) (a b : V) : step V :=
  if String.eqb op "<<" then
    match a, b with
    | VU 64 x, (VU _ n | VI n) => Ok (VU 64 (wshl x n))
    | VI x, (VU _ n | VI n) => Ok (VI (Z.shiftl x n))
    | _, _ => Stk
    end
  else if String.eqb op ">>" then
    match a, b with VU w x, (VU _ n | VI n) => Ok (VU w (wshr x n)) | _, _ => Stk end
  else
  match a, b with
  | VI x, VI y => arith op x y None
  | VU w x, VU w' y => if same w w' then arith op x y (Some w) else Stk
  | VU w x, VI y | VI x, VU w y => arith op x y (Some w)
  | VB x, VB y => if String.eqb op "==" then Ok (VB (Bool.eqb x y)) else if String.eqb op "!=" then Ok (VB (negb (Bool.eqb x y))) else Stk
  | x, VN => match isnil x with
             | Some t => if String.eqb op "==" then Ok (VB t) else if String.eqb op "!=" then Ok (VB (negb t)) else Stk
             | None => Stk
             end
  | _, _ => Stk
  end.
Definition un (op : string) (a : V) : step V :=
  match a with
  | VB x => if String.eqb op "!" then Ok (VB (negb x)) else Stk
  | VI x => if String.eqb op "-" then Ok (VI (- x)) else Stk
  | _ => Stk
  end.

(** ** Types *)
Definition conv (t : string) (v : V) : option V :=
  let to w := match v with
              | VI z => Some (VU w (trunc w z))
              | VU w' z => Some (VU w (if negb (less w w') then z else trunc w z))
              | _ => None
              end in
  if String.eqb t "uint64" then to 64 else if String.eqb t "uint" then to 64 else if String.eqb t "uint8" then to 8
  else if String.eqb t "byte" then to 8 else if String.eqb t "uint16" then to 16
  else if String.eqb t "int" then match v with VI z => Some (VI z) | VU w z => Some (VI (if same w 64 && negb (less z (2 ^ 63)) then z - 2 ^ 64 else z)) | _ => None end
  else if String.eqb t "[]byte" then match v with VBy l => Some (VBy l) | VN => Some (VBy []) | _ => None end
  else if String.eqb t "FRRepr" then match v with VRr r => Some v | _ => None end
  else if String.eqb t "sortableByteArray" then match v with VLB l => Some v | _ => None end
  else None.
Definition zerov (t : string) : option V :=
  let z6 := mkFQRepr 0 0 0 0 0 0 in
  if String.eqb t "FQ" then Some (VF zeroF)
  else if String.eqb t "FQ2" then Some (V2 (mkFQ2 zeroF zeroF))
  else if String.eqb t "FQ6" then Some (V6 (mkFQ6 (mkFQ2 zeroF zeroF) (mkFQ2 zeroF zeroF) (mkFQ2 zeroF zeroF)))
  else if String.eqb t "FQRepr" then Some (VR z6)
  else if String.eqb t "[6]uint64" then Some (VR z6)
  else if String.eqb t "FRRepr" then Some (VRr (mkFRRepr 0 0 0 0))
  else if String.eqb t "[4]uint64" then Some (VRr (mkFRRepr 0 0 0 0))
  else if String.eqb t "uint64" then Some (VU 64 0)
  else if String.eqb t "bool" then Some (VB false)
  else if String.eqb t "[2]byte" then Some (VBy (repeat 0 2))
  else if String.eqb t "[32]byte" then Some (VBy (repeat 0 32))
  else if String.eqb t "[48]byte" then Some (VBy (repeat 0 48))
  else if String.eqb t "[96]byte" then Some (VBy (repeat 0 96))
  else if String.eqb t "[192]byte" then Some (VBy (repeat 0 192))
  else if String.eqb t "[]byte" then Some (VBy [])
  else if String.eqb t "[2]FQ" then Some (VL [VF zeroF; VF zeroF])
  else if String.eqb t "[][3]FQ2" then Some (VL3 [])
  else None.
(** T{...}: the fields by position or by name; a field that is not given has its zero value. *)
Definition field (fs : list (string * V)) (n : nat) (f : string) : option V :=
  match nth_error fs n with
  | Some (k, v) => if String.eqb k "" then Some v else assoc f fs
  | None => assoc f fs
  end.
Definition word (o : option V) : option Z := match o with None => Some 0 | Some (VU _ z) => Some z | Some (VI z) => Some z | _ => None end.
Fixpoint words (l : list V) : option (list Z) :=
  match l with [] => Some [] | VU 64 z :: r => option_map (cons z) (words r) | _ => None end.
Definition boolv (o : option V) : option bool := match o with None => Some false | Some (VB b) => Some b | _ => None end.
Definition comp (t : string) (fs : list (string * V)) : option V :=
  let at_ n f := field fs n f in
  let z2 := mkFQ2 zeroF zeroF in
  if String.eqb t "FQ" then
    match fs with
    | [] => Some (VF zeroF)
    | _ => match at_ 0%nat "n"%string with Some (VR r) => Some (VF (snd limbs r)) | _ => None end
    end
  else if String.eqb t "FQ2" then
    match fs with
    | [] => Some (V2 z2)
    | _ => match at_ 0%nat "c0"%string, at_ 1%nat "c1"%string with Some (VF x), Some (VF y) => Some (V2 (mkFQ2 x y)) | _, _ => None end
    end
  else if String.eqb t "FQ6" then
    match fs with
    | [] => Some (V6 (mkFQ6 z2 z2 z2))
    | _ => match at_ 0%nat "c0"%string, at_ 1%nat "c1"%string, at_ 2%nat "c2"%string with
           | Some (V2 x), Some (V2 y), Some (V2 z) => Some (V6 (mkFQ6 x y z)) | _, _, _ => None end
    end
  else if String.eqb t "FQ12" then
    match at_ 0%nat "c0"%string, at_ 1%nat "c1"%string with Some (V6 x), Some (V6 y) => Some (V12 (mkFQ12 x y)) | _, _ => None end
  else if String.eqb t "G1Affine" then
    match at_ 0%nat "x"%string, at_ 1%nat "y"%string, boolv (at_ 2%nat "infinity"%string) with
    | Some (VF x), Some (VF y), Some b => Some (VA1 (mkAff x y b)) | _, _, _ => None end
  else if String.eqb t "G2Affine" then
    match at_ 0%nat "x"%string, at_ 1%nat "y"%string, boolv (at_ 2%nat "infinity"%string) with
    | Some (V2 x), Some (V2 y), Some b => Some (VA2 (mkAff x y b)) | _, _, _ => None end
  else if String.eqb t "G1Projective" then
    match at_ 0%nat "x"%string, at_ 1%nat "y"%string, at_ 2%nat "z"%string with
    | Some (VF x), Some (VF y), Some (VF z) => Some (VP1 (mkProj x y z)) | _, _, _ => None end
  else if String.eqb t "G2Projective" then
    match at_ 0%nat "x"%string, at_ 1%nat "y"%string, at_ 2%nat "z"%string with
    | Some (V2 x), Some (V2 y), Some (V2 z) => Some (VP2 (mkProj x y z)) | _, _, _ => None end
  else if String.eqb t "FR" then match at_ 0%nat "n"%string with Some (VRr r) => Some (VFR (mkFR r)) | _ => None end
  else if (String.eqb t "FQRepr" || String.eqb t "[6]uint64")%bool then
    match map (fun kv => word (Some (snd kv))) fs with
    | [] => Some (VR (mkFQRepr 0 0 0 0 0 0))
    | [Some a0; Some a1; Some a2; Some a3; Some a4; Some a5] => Some (VR (mkFQRepr a0 a1 a2 a3 a4 a5))
    | _ => None
    end
  else if String.eqb t "FRRepr" then
    match map (fun kv => word (Some (snd kv))) fs with
    | [] => Some (VRr (mkFRRepr 0 0 0 0))
    | [Some a0; Some a1; Some a2; Some a3] => Some (VRr (mkFRRepr a0 a1 a2 a3))
    | _ => None
    end
  else if String.eqb t "[]byte" then
    option_map VBy (fold_right (fun kv acc => match word (Some (snd kv)), acc with Some z, Some l => Some (z :: l) | _, _ => None end) (Some []) fs)
  else if String.eqb t "[3]FQ2" then Some (VL (map snd fs))
  else if String.eqb t "BitIterator" then
    match at_ 0%nat "arr"%string, at_ 1%nat "n"%string with
    | Some (VL l), Some (VU 64 n) => match words l with Some l' => Some (VBI (mkBI l' n)) | None => None end | _, _ => None end
  else if String.eqb t "G2Prepared" then
    match boolv (at_ 1%nat "infinity"%string) with
    | Some b => Some (VS t [("coeffs"%string, match at_ 0%nat "coeffs"%string with Some c => c | None => VL3 [] end); ("infinity"%string, VB b)])
    | None => None
    end
  else if String.eqb t "pairingItem" then
    match at_ 0%nat "p"%string, at_ 1%nat "q"%string, at_ 2%nat "qIndex"%string with
    | Some p, Some q, Some i => Some (VS t [("p"%string, p); ("q"%string, q); ("qIndex"%string, i)]) | _, _, _ => None end
  else if String.eqb t "Signature" then option_map (fun v => VS t [("s"%string, v)]) (at_ 0%nat "s"%string)
  else if String.eqb t "PublicKey" then option_map (fun v => VS t [("p"%string, v)]) (at_ 0%nat "p"%string)
  else if String.eqb t "SecretKey" then option_map (fun v => VS t [("f"%string, v)]) (at_ 0%nat "f"%string)
  else if String.eqb t "[]MillerLoopItem" then
    option_map VMI (fold_right (fun kv acc => match vitem (snd kv), acc with Some z, Some l => Some (z :: l) | _, _ => None end) (Some []) fs)
  else if String.eqb t "MillerLoopItem" then
    match at_ 0%nat "P"%string, at_ 1%nat "Q"%string with Some p, Some q => Some (VS t [("P"%string, p); ("Q"%string, q)]) | _, _ => None end
  else match fs with [] => zerov t | _ => None end.
(** The name of the type of a value, for the choice of a method. *)
Definition tyname (v : V) : string :=
  match v with
  | VF _ => "FQ" | V2 _ => "FQ2" | V6 _ => "FQ6" | V12 _ => "FQ12" | VA1 _ => "G1Affine" | VA2 _ => "G2Affine"
  | VP1 _ => "G1Projective" | VP2 _ => "G2Projective" | VR _ => "FQRepr" | VRr _ => "FRRepr" | VFR _ => "FR"
  | VBig _ => "big.Int" | VBI _ => "BitIterator" | VS t _ => t | VStr s => s | VN => "nil" | _ => "?"
  end%string.
(** Types that the package handles through pointers: assigning one without Copy makes a second pointer to the object. *)
Definition ptrkind (v : V) : bool :=
  match v with V6 _ | V12 _ | VA1 _ | VA2 _ | VP1 _ | VP2 _ | VRr _ | VFR _ | VBig _ | VLB _ => true
  | VS t _ => String.eqb t "Signature" || String.eqb t "PublicKey" || String.eqb t "SecretKey" || String.eqb t "hash" | _ => false end%string.

(** ** Environments: nested scopes *)
Definition env := list (list (string * V)).
Fixpoint lookup (x : string) (e : env) : option V :=
  match e with [] => None | s :: r => match assoc x s with Some v => Some v | None => lookup x r end end.
Fixpoint update (x : string) (v : V) (e : env) : option env :=
  match e with
  | [] => None
  | s :: r => match assoc_set x v s with Some s' => Some (s' :: r) | None => option_map (cons s) (update x v r) end
  end.
(** x := v: a variable of the innermost scope is assigned, otherwise a new one is declared *)
Definition declare (x : string) (v : V) (e : env) : env :=
  if String.eqb x "_" then e
  else match e with
       | [] => [[(x, v)]]
       | s :: r => match assoc_set x v s with Some s' => s' :: r | None => ((x, v) :: s) :: r end
       end.
Definition path := (string * list sel)%type.
Definition readp (p : path) (e : env) : step V :=
  let '(x, ss) := p in
  match (match lookup x e with Some v => Some v | None => glob x end) with
  | Some VMoved => Stk
  | Some v => getp ss v
  | None => Stk
  end.
Definition writep (p : path) (a : V) (e : env) (k : env -> outcome F) : outcome F :=
  let '(x, ss) := p in
  if String.eqb x "_" then k e
  else match lookup x e with
  | Some v => match ss with
              | [] => on (lift (update x a e)) k
              | _ => match v with VMoved => Stuck | _ => setp ss v a (fun v' => on (lift (update x v' e)) k) end
              end
  | None => Stuck
  end.
(** Do two paths lead to overlapping parts of one variable? to the same part? *)
Fixpoint overlap (a b : list sel) : bool :=
  match a, b with
  | SelF f :: a, SelF g :: b => String.eqb f g && overlap a b
  | SelI i :: a, SelI j :: b => same i j && overlap a b
  | _, _ => true
  end.
(** Among the receiver and the arguments, those that are objects: is one of the arguments the receiver itself (Some true), do two of
    them overlap in another way (None)? *)
Fixpoint disjoint (ps : list (option path)) (vs : list V) (p : path) : bool :=
  match ps, vs with
  | Some q :: ps, v :: vs => negb (ptrkind v && String.eqb (fst p) (fst q) && overlap (snd p) (snd q)) && disjoint ps vs p
  | _ :: ps, _ :: vs => disjoint ps vs p
  | _, _ => true
  end.
Fixpoint alldisjoint (ps : list (option path)) (vs : list V) : bool :=
  match ps, vs with
  | Some p :: ps, v :: vs => (negb (ptrkind v) || disjoint ps vs p) && alldisjoint ps vs
  | _ :: ps, _ :: vs => alldisjoint ps vs
  | _, _ => true
  end.
Definition aliased (ps : list (option path)) (vs : list V) : option bool :=
  if alldisjoint ps vs then Some false
  else match ps with
       | Some (x, a) :: Some (y, b) :: r => if Nat.eqb (length a) (length b) && alldisjoint (Some (x, a) :: r) (match vs with v :: _ :: vs => v :: vs | _ => [] end) then Some true else None
       | _ => None
       end.
Notation R := (outcome F).
Fixpoint declares (xs : list string) (vs : list V) (e : env) : step env :=
  match xs, vs with
  | [], [] => Ok e
  | x :: xs, v :: vs => declares xs vs (declare x v e)
  | _, _ => Stk
  end.
Fixpoint writes (ps : list path) (vs : list V) (e : env) (k : env -> R) : R :=
  match ps, vs with
  | [], [] => k e
  | p :: ps, v :: vs => writep p v e (fun e => writes ps vs e k)
  | _, _ => Stuck
  end.
(** write back the arguments that a callee has changed; an argument that is not a path is a temporary *)
Fixpoint writeback (wb : list (nat * V)) (ps : list (option path)) (e : env) (k : env -> R) : R :=
  match wb with
  | [] => k e
  | (i, v) :: r => match nth_error ps i with
                   | Some (Some p) => writep p v e (fun e => writeback r ps e k)
                   | Some None => writeback r ps e k
                   | None => Stuck
                   end
  end.
(** x = v for a parameter x that is a pointer: from here on x is another object, and what the caller sees is the value so far, which
    is kept under the name *x. The entry *x is there from the start, holding nil, when the function has such an assignment. *)
Fixpoint detach (ls : list expr) (e : env) : env :=
  match ls with
  | EV x :: ls => detach ls (match lookup ("*" ++ x)%string e with
                             | Some VN => match lookup x e with Some v => match update ("*" ++ x)%string v e with Some e' => e' | None => e end | None => e end
                             | _ => e
                             end)
  | _ :: ls => detach ls e
  | [] => e
  end.
Definition detaches (ls : list expr) (e : env) : bool :=
  existsb (fun l => match l with EV x => match lookup ("*" ++ x)%string e with Some VN => true | _ => false end | _ => false end) ls.
Fixpoint rebinds (x : string) (s : stmt) : bool :=
  match s with
  | SAssign ls _ => existsb (fun l => match l with EV y => String.eqb x y | _ => false end) ls
  | SDef ys _ => existsb (String.eqb x) ys
  | SIf i _ t e => existsb (rebinds x) i || existsb (rebinds x) t || existsb (rebinds x) e
  | SFor i _ p b => existsb (rebinds x) i || existsb (rebinds x) p || existsb (rebinds x) b
  | SRange k v _ b => existsb (rebinds x) b
  | SSwitch _ cs => existsb (fun c => existsb (rebinds x) (snd c)) cs
  | SBlock b => existsb (rebinds x) b
  | _ => false
  end.
Definition redefines (x : string) (s : stmt) : bool := match s with SDef ys _ => existsb (String.eqb x) ys | _ => false end.
Definition pop (e : env) : env := match e with [] => [] | _ :: r => r end.
Definition isptr (t : string) : bool := match t with String "*" _ => true | _ => false end.
Definition asZ (v : V) : option Z := match v with VI z => Some z | VU _ z => Some z | _ => None end.
(** the elements of the value of a range clause *)
Definition elems (v : V) : option (list V) :=
  match v with
  | VR r => Some (map (VU 64) (FQRepr_slice r))
  | VRr r => Some (map (VU 64) [v0 r; v1 r; v2 r; v3 r])
  | VBy l => Some (map (VU 8) l)
  | VLF l => Some (map VF l)
  | VL2 l => Some (map V2 l)
  | VL3 l => Some (map (fun c => VL [V2 (fst (fst c)); V2 (snd (fst c)); V2 (snd c)]) l)
  | VPI l => Some (map piV l)
  | VMI l => Some (map itemV l)
  | VLB l => Some (map VBy l)
  | VLP1 t f l => Some (map (fun p => VS t [(f, VP1 p)]) l)
  | VLP2 t f l => Some (map (fun p => VS t [(f, VP2 p)]) l)
  | VL l => Some l
  | _ => None
  end.
Definition namedres (rs : list (string * string)) : step (list (string * V)) :=
  fold_right (fun nt acc => obind acc (fun l =>
    if String.eqb (fst nt) "_" then Ok l else match zerov (snd nt) with Some z => Ok ((fst nt, z) :: l) | None => Stk end)) (Ok []) rs.
Fixpoint zip_params (ps : list (string * string)) (vs : list V) : option (list (string * V)) :=
  match ps, vs with
  | [], [] => Some []
  | p :: ps, v :: vs => option_map (cons (fst p, v)) (zip_params ps vs)
  | _, _ => None
  end.
Definition snoc {A} (l : list A) (a : A) : list A := l ++ [a].
(** make([]byte, n) and make([][]byte, n), whose elements are nil *)
Definition mkbytes (n : Z) : list Z := repeat 0 (Z.to_nat n).
Definition mkslices (n : Z) : list (list Z) := repeat [] (Z.to_nat n).
(** make(t, n) and make(t, n, capacity) *)
Definition make (vs : list V) (k : V -> outcome F) : outcome F :=
  match vs with
  | VStr t :: VI n :: _ =>
      if String.eqb t "[]pairingItem" then if less n 0 then Panic else k (VPI (repeat (None, [], 0) (Z.to_nat n)))
      else if String.eqb t "[][]byte" then if less n 0 then Panic else k (VLB (mkslices n))
      else if String.eqb t "[]byte" then if less n 0 then Panic else k (VBy (mkbytes n))
      else if String.eqb t "[]FQ" then if less n 0 then Panic else k (VLF (repeat zeroF (Z.to_nat n)))
      else if String.eqb t "[]FQ2" then if less n 0 then Panic else k (VL2 (repeat (mkFQ2 zeroF zeroF) (Z.to_nat n)))
      else Stuck
  | _ => Stuck
  end.
(** The value of a builtin or a conversion, if the name is one. *)
Definition builtin (f : string) (vs : list V) (spread : bool) : option (step V) :=
  if String.eqb f "len" then
    Some match vs with
         | [VBy l] => Ok (VI (Z.of_nat (length l))) | [VL l] => Ok (VI (Z.of_nat (length l)))
         | [VLF l] => Ok (VI (Z.of_nat (length l))) | [VL2 l] => Ok (VI (Z.of_nat (length l))) | [VL3 l] => Ok (VI (Z.of_nat (length l)))
         | [VPI l] => Ok (VI (Z.of_nat (length l))) | [VMI l] => Ok (VI (Z.of_nat (length l)))
         | [VLB l] => Ok (VI (Z.of_nat (length l))) | [VLP1 _ _ l] => Ok (VI (Z.of_nat (length l))) | [VLP2 _ _ l] => Ok (VI (Z.of_nat (length l)))
         | _ => Stk
         end
  else if String.eqb f "append" then
    Some match vs, spread with
         | [VBy l; VBy m], true => Ok (VBy (l ++ m))
         | [VBy l; VI z], false => Ok (VBy (l ++ [z]))
         | [VLF l; VF x], false => Ok (VLF (snoc l x))
         | [VL2 l; V2 x], false => Ok (VL2 (snoc l x))
         | [VL3 l; VL [V2 x; V2 y; V2 z]], false => Ok (VL3 (snoc l (x, y, z)))
         | [VL l; v], false => Ok (VL (l ++ [v]))
         | _, _ => Stk
         end
  else if (String.eqb f "panic" || String.eqb f "log.Panic")%bool then Some Pan
  else if String.eqb f "errors.New" then Some (Ok VErr)
  else match vs with [v] => match conv f v with Some v' => Some (Ok v') | None => None end | _ => None end.

(** ** Running *)
(** The meaning of `for` and of `range` is a parameter here; the two are tied together below. *)
Section Exec.
Context (LOOP : option expr -> list stmt -> list stmt -> env -> (env -> R) -> (list V -> env -> R) -> R).
Context (RANGE : string -> string -> Z -> list V -> list stmt -> env -> (env -> R) -> (list V -> env -> R) -> R).
Fixpoint eval (n : nat) (x : expr) (e : env) (k : list V -> env -> R) {struct n} : R :=
  match n with O => Stuck | S n =>
  match x with
  | EV y => if String.eqb y "true" then k [VB true] e else if String.eqb y "false" then k [VB false] e else if String.eqb y "nil" then k [VN] e
            else on (readp (y, []) e) (fun v => k [v] e)
  | EI z => k [VI z] e
  | ES s => k [VStr s] e
  | ET t => k [VStr t] e
  | ESel a f => eval1 n a e (fun v e => on (getf f v) (fun w => k [w] e))
  | EIdx a i => eval1 n a e (fun v e => eval1 n i e (fun j e => match asZ j with Some z => getik z v (fun w => k [w] e) | None => Stuck end))
  | ESlice a lo hi =>
      eval1 n a e (fun v e => evalo n lo e (fun l e => evalo n hi e (fun h e =>
        on (getr (match l with Some z => z | None => 0 end) h v) (fun w => k [w] e))))
  | EBin op a b =>
      if String.eqb op "&&" then eval1 n a e (fun v e => match v with VB t => if t then eval1 n b e (fun w e => match w with VB _ => k [w] e | _ => Stuck end) else k [VB false] e | _ => Stuck end)
      else if String.eqb op "||" then eval1 n a e (fun v e => match v with VB t => if t then k [VB true] e else eval1 n b e (fun w e => match w with VB _ => k [w] e | _ => Stuck end) | _ => Stuck end)
      else eval1 n a e (fun v e => eval1 n b e (fun w e => on (bin op v w) (fun r => k [r] e)))
  | EUn op a =>
      if (String.eqb op "&" || String.eqb op "*")%string%bool then eval1 n a e (fun v e => k [v] e)
      else eval1 n a e (fun v e => on (un op v) (fun r => k [r] e))
  | ECall f args => evals n args e (fun vs e => invoke n f vs args e false k)
  | ECallSpread f args => evals n args e (fun vs e => invoke n f vs args e true k)
  | EMeth a m args =>
      eval1 n a e (fun v e => evals n args e (fun vs e =>
        if String.eqb m "Copy" then match v with VN => Panic | VMoved => Stuck | _ => k [v] e end
        else match v with VN => Panic | _ => let invoke a s :=
          call (tyname v ++ "." ++ m ++ s)%string (v :: vs) (fun r =>
            match fst r with
            | [] => k (snd r) e
            | wb => paths n (a :: args) e (fun ps e => writeback wb ps e (fun e => k (snd r) e))
            end) in
          if existsb ptrkind vs then
            paths n (a :: args) e (fun ps _ => match aliased ps (v :: vs) with
              | Some t => invoke a (if t then "=" else "")%string
              | None => Stuck
              end)
          else invoke a ""%string end))
  | EComp t fs =>
      evals n (map snd fs) e (fun vs e => move n (map snd fs) vs e (fun e => match comp t (combine (map fst fs) vs) with Some v => k [v] e | None => Stuck end))
  | EFunc ps rs b => k [VFun ps rs b] e
  end end
with eval1 (n : nat) (x : expr) (e : env) (k : V -> env -> R) {struct n} : R :=
  match n with O => Stuck | S n => eval n x e (fun vs e => match vs with [v] => k v e | _ => Stuck end) end
with evalo (n : nat) (x : option expr) (e : env) (k : option Z -> env -> R) {struct n} : R :=
  match n with O => Stuck | S n =>
  match x with None => k None e | Some x => eval1 n x e (fun v e => match asZ v with Some z => k (Some z) e | None => Stuck end) end end
with evals (n : nat) (xs : list expr) (e : env) (k : list V -> env -> R) {struct n} : R :=
  match n with O => Stuck | S n =>
  match xs with
  | [] => k [] e
  | x :: xs => eval n x e (fun vs e => evals n xs e (fun ws e => k (vs ++ ws) e))
  end end
(** the path denoted by an expression, if it is one *)
with paths (n : nat) (xs : list expr) (e : env) (k : list (option path) -> env -> R) {struct n} : R :=
  match n with O => Stuck | S n =>
  match xs with
  | [] => k [] e
  | x :: xs => lval n x e (fun p e => paths n xs e (fun ps e => k (p :: ps) e))
  end end
with lval (n : nat) (x : expr) (e : env) (k : option path -> env -> R) {struct n} : R :=
  match n with O => Stuck | S n =>
  match x with
  | EV y => k (match lookup y e with Some _ => Some (y, []) | None => if String.eqb y "_" then Some (y, []) else None end) e
  | EUn op a => if (String.eqb op "&" || String.eqb op "*")%string%bool then lval n a e k else k None e
  | ESel a f => lval n a e (fun p e => k (match p with Some (y, ss) => Some (y, ss ++ [SelF f]) | None => None end) e)
  | EIdx a i => lval n a e (fun p e =>
      match p with
      | Some (y, ss) => eval1 n i e (fun j e => match asZ j with Some z => k (Some (y, ss ++ [SelI z])) e | None => Stuck end)
      | None => k None e
      end)
  | ESlice a lo hi => lval n a e (fun p e =>
      match p with
      | Some (y, ss) => evalo n lo e (fun l e => evalo n hi e (fun h e => k (Some (y, ss ++ [SelR (match l with Some z => z | None => 0 end) h])) e))
      | None => k None e
      end)
  | ECall f [a] => if String.eqb f "sortableByteArray" then lval n a e k else k None e   (* a conversion of slices: the same slice *)
  | _ => k None e
  end end
(** f(args): a closure of the environment, a builtin, or a function of the package *)
with invoke (n : nat) (f : string) (vs : list V) (args : list expr) (e : env) (spread : bool) (k : list V -> env -> R) {struct n} : R :=
  match n with O => Stuck | S n =>
  match lookup f e with
  | Some (VFun ps rs b) =>
      match (if existsb (fun p => isptr (snd p) && existsb (rebinds (fst p)) b) ps then None else zip_params ps vs) with
      | Some s =>
          let fin rets e' :=
               (* the scopes of the closure are the innermost; arguments passed by pointer are written back *)
               let depth := length e in
               let e1 := skipn (length e' - depth) e' in
               let s' := match skipn (length e' - depth - 1) e' with s' :: _ => s' | [] => [] end in
               let wb := flat_map (fun x => x) (map (fun ip => if isptr (snd (snd ip)) then match assoc (fst (snd ip)) s' with Some v => [(fst ip, v)] | None => [] end else []) (combine (seq 0 (length ps)) ps)) in
               paths n args e1 (fun pth e2 => writeback wb pth e2 (fun e3 => k rets e3)) in
          exec n b ([] :: s :: e) (fun e' => match rs with [] => fin [] e' | _ => Stuck end) fin
            (fun _ => Stuck) (fun _ => Stuck)
      | None => Stuck
      end
  | _ =>
      if String.eqb f "make" then make vs (fun v => k [v] e) else
      match builtin f vs spread with
      | Some (Ok v) => k [v] e
      | Some Pan => Panic
      | Some Stk => Stuck
      | None =>
          call f vs (fun r =>
            match fst r with
            | [] => k (snd r) e
            | wb => paths n args e (fun ps e => writeback wb ps e (fun e => k (snd r) e))
            end)
      end
  end end
(** kn: what follows the statements; kr: return; kb: break; kc: continue *)
with exec (n : nat) (ss : list stmt) (e : env) (kn : env -> R) (kr : list V -> env -> R) (kb kc : env -> R) {struct n} : R :=
  match n with O => Stuck | S n =>
  match ss with
  | [] => kn e
  | s :: ss =>
      let next e := exec n ss e kn kr kb kc in
      match s with
      | SDef xs es => evals n es e (fun vs e => move n es vs e (fun e => on (declares xs vs e) next))
      | SVar x t => match zerov t with Some v => next (declare x v e) | None => Stuck end
      | SAssign ls es => evals n es e (fun vs e => move n es vs e (fun e =>
          paths n ls e (fun ps e =>
            match fold_right (fun p acc => match p, acc with Some p, Some l => Some (p :: l) | _, _ => None end) (Some []) ps with
            | Some ps => if detaches ls e then writes ps vs (detach ls e) next else writes ps vs e next
            | None => Stuck
            end)))
      | SOp op l x => eval1 n l e (fun v e => eval1 n x e (fun w e => on (bin op v w) (fun r =>
          lval n l e (fun p e => match p with Some p => writep p r e next | None => Stuck end))))
      | SExpr x => eval n x e (fun _ e => next e)
      | SIf init c t el =>
          exec n init ([] :: e) (fun e =>
            eval1 n c e (fun v e => match v with
              | VB b => if b then exec n t ([] :: e) (fun e => next (pop (pop e))) kr (fun e => kb (pop (pop e))) (fun e => kc (pop (pop e)))
                        else exec n el ([] :: e) (fun e => next (pop (pop e))) kr (fun e => kb (pop (pop e))) (fun e => kc (pop (pop e)))
              | _ => Stuck
              end)) kr (fun _ => Stuck) (fun _ => Stuck)
      | SFor init c post body =>
          exec n init ([] :: e) (fun e => LOOP c post body e (fun e => next (pop e)) kr) kr (fun _ => Stuck) (fun _ => Stuck)
      | SRange kx vx x body =>
          eval1 n x e (fun v e => match elems v with Some l => RANGE kx vx 0 l body e next kr | None => Stuck end)
      | SSwitch x cs => eval1 n x e (fun v e => switch n v cs e next kr)
      | SBlock b => exec n b ([] :: e) (fun e => next (pop e)) kr (fun e => kb (pop e)) (fun e => kc (pop e))
      | SRet es => evals n es e (fun vs e => kr vs e)
      | SBreak => kb e
      | SContinue => kc e
      end
  end end
(** an assigned object is taken away from the variable or field it came from *)
with move (n : nat) (es : list expr) (vs : list V) (e : env) (k : env -> R) {struct n} : R :=
  match n with O => Stuck | S n =>
  match es, vs with
  | x :: es, v :: vs =>
      if ptrkind v then
        lval n x e (fun p e => match p with
          | Some p => writep p VMoved e (fun e => move n es vs e k)
          | None => match x with EV _ => Stuck | ESel _ _ => Stuck | _ => move n es vs e k end   (* a package variable is never taken away *)
          end)
      else move n es vs e k
  | _, _ => k e
  end end
with switch (n : nat) (v : V) (cs : list (option (list expr) * list stmt)) (e : env) (kn : env -> R) (kr : list V -> env -> R) {struct n} : R :=
  match n with O => Stuck | S n =>
  match cs with
  | [] => kn e
  | (None, b) :: _ => exec n b ([] :: e) (fun e => kn (pop e)) kr (fun e => kn (pop e)) (fun _ => Stuck)
  | (Some xs, b) :: cs =>
      evals n xs e (fun ws e => 
        match fold_right (fun w acc => match bin "==" v w, acc with Ok (VB t), Some u => Some (t || u)%bool | _, _ => None end) (Some false) ws with
        | Some t => if t then exec n b ([] :: e) (fun e => kn (pop e)) kr (fun e => kn (pop e)) (fun _ => Stuck) else switch n v cs e kn kr
        | None => Stuck
        end)
  end end.
(** exec, one statement at a time: `next` is what follows *)
Definition exec1 (n : nat) (s : stmt) (e : env) (next : env -> R) (kr : list V -> env -> R) (kb kc : env -> R) : R :=
      match s with
      | SDef xs es => evals n es e (fun vs e => move n es vs e (fun e => on (declares xs vs e) next))
      | SVar x t => match zerov t with Some v => next (declare x v e) | None => Stuck end
      | SAssign ls es => evals n es e (fun vs e => move n es vs e (fun e =>
          paths n ls e (fun ps e =>
            match fold_right (fun p acc => match p, acc with Some p, Some l => Some (p :: l) | _, _ => None end) (Some []) ps with
            | Some ps => if detaches ls e then writes ps vs (detach ls e) next else writes ps vs e next
            | None => Stuck
            end)))
      | SOp op l x => eval1 n l e (fun v e => eval1 n x e (fun w e => on (bin op v w) (fun r =>
          lval n l e (fun p e => match p with Some p => writep p r e next | None => Stuck end))))
      | SExpr x => eval n x e (fun _ e => next e)
      | SIf init c t el =>
          exec n init ([] :: e) (fun e =>
            eval1 n c e (fun v e => match v with
              | VB b => if b then exec n t ([] :: e) (fun e => next (pop (pop e))) kr (fun e => kb (pop (pop e))) (fun e => kc (pop (pop e)))
                        else exec n el ([] :: e) (fun e => next (pop (pop e))) kr (fun e => kb (pop (pop e))) (fun e => kc (pop (pop e)))
              | _ => Stuck
              end)) kr (fun _ => Stuck) (fun _ => Stuck)
      | SFor init c post body =>
          exec n init ([] :: e) (fun e => LOOP c post body e (fun e => next (pop e)) kr) kr (fun _ => Stuck) (fun _ => Stuck)
      | SRange kx vx x body =>
          eval1 n x e (fun v e => match elems v with Some l => RANGE kx vx 0 l body e next kr | None => Stuck end)
      | SSwitch x cs => eval1 n x e (fun v e => switch n v cs e next kr)
      | SBlock b => exec n b ([] :: e) (fun e => next (pop e)) kr (fun e => kb (pop e)) (fun e => kc (pop e))
      | SRet es => evals n es e (fun vs e => kr vs e)
      | SBreak => kb e
      | SContinue => kc e
      end.
Lemma exec_cons n s ss e kn kr kb kc :
  exec (S n) (s :: ss) e kn kr kb kc = exec1 n s e (fun en => exec n ss en kn kr kb kc) kr kb kc.
Proof. destruct s; reflexivity. Qed.
End Exec.

(** One step of fuel for each turn of a `for`; a `range` goes through a list. The depth of an expression or block is at most 200. *)
Definition depth : nat := 200.
Fixpoint loop (n : nat) (c : option expr) (post body : list stmt) (e : env) (kn : env -> R) (kr : list V -> env -> R) {struct n} : R :=
  match n with O => Stuck | S n =>
  let more e := exec (loop n) (range n) depth post (pop e) (fun e => loop n c post body e kn kr) kr (fun _ => Stuck) (fun _ => Stuck) in
  let go e := exec (loop n) (range n) depth body ([] :: e) more kr (fun e => kn (pop e)) more in
  match c with
  | None => go e
  | Some c => eval1 (loop n) (range n) depth c e (fun v e => match v with VB b => if b then go e else kn e | _ => Stuck end)
  end end
with range (n : nat) (kx vx : string) (i : Z) (l : list V) (body : list stmt) (e : env) (kn : env -> R) (kr : list V -> env -> R) {struct n} : R :=
  match n with O => Stuck | S n =>
  (fix go (i : Z) (l : list V) (e : env) {struct l} : R :=
     match l with
     | [] => kn e
     | v :: l =>
         exec (loop n) (range n) depth body ([] :: (declare kx (VI i) (declare vx v ([] :: e)))) (fun e => go (i + 1) l (pop (pop e))) kr
           (fun e => kn (pop (pop e))) (fun e => go (i + 1) l (pop (pop e)))
     end) i l e
  end.

Lemma loop_S n c post body e kn kr : loop (S n) c post body e kn kr =
  (let more e := exec (loop n) (range n) depth post (pop e) (fun e => loop n c post body e kn kr) kr (fun _ => Stuck) (fun _ => Stuck) in
   let go e := exec (loop n) (range n) depth body ([] :: e) more kr (fun e => kn (pop e)) more in
   match c with
   | None => go e
   | Some c => eval1 (loop n) (range n) depth c e (fun v e => match v with VB b => if b then go e else kn e | _ => Stuck end)
   end).
Proof. reflexivity. Qed.
Lemma range_nil n kx vx i body e kn kr : range (S n) kx vx i [] body e kn kr = kn e.
Proof. reflexivity. Qed.
Lemma range_cons n kx vx i v l body e kn kr : range (S n) kx vx i (v :: l) body e kn kr =
  exec (loop n) (range n) depth body ([] :: (declare kx (VI i) (declare vx v ([] :: e))))
    (fun e => range (S n) kx vx (i + 1) l body (pop (pop e)) kn kr) kr
    (fun e => kn (pop (pop e))) (fun e => range (S n) kx vx (i + 1) l body (pop (pop e)) kn kr).
Proof. reflexivity. Qed.

(** Running a function on arguments: the final values of the parameters that are pointers or slices, which the caller can see, and the
    results. A function without result may end without return. *)
Definition shared (t : string) : bool := match t with String "*" _ => true | String "[" (String "]" _) => true | _ => String.eqb t "sortableByteArray" || String.eqb t "FR" end.
(** A parameter that is declared again by := at the level of the body is not covered. *)
Definition run_with LOOP RANGE (f : func) (args : list V) : R :=
  match zip_params (f_params f) args, namedres (f_results f) with
  | Some s, Ok r =>
      let fin rets (e : env) :=
        let last := match rev e with a :: _ => [a] | [] => [] end in
        let seen p := match lookup ("*" ++ p)%string last with Some VN | None => lookup p last | v => v end in
        match fold_right (fun p acc => match seen (fst p), acc with Some v, Some l => Some (v :: l) | _, _ => None end) (Some []) (filter (fun p => shared (snd p)) (f_params f)) with
        | Some ps => Done ps rets
        | None => Stuck
        end in
      let marks := map (fun p => ("*" ++ fst p, VN)%string) (filter (fun p => shared (snd p) && existsb (rebinds (fst p)) (f_body f)) (f_params f)) in
      if existsb (fun p => shared (snd p) && existsb (redefines (fst p)) (f_body f)) (f_params f) then Stuck
      else let go e := exec LOOP RANGE depth (f_body f) e (fun e => match f_results f with [] => fin [] e | _ => Stuck end) fin (fun _ => Stuck) (fun _ => Stuck) in
           match marks with [] => go [r ++ s] | _ => go [r ++ s ++ marks] end
  | _, _ => Stuck
  end.
Definition run (n : nat) : func -> list V -> R := run_with (loop n) (range n).
End Sem.
