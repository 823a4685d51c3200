(** The same programs on mathematical points: the curve group, residues for scalars, and for every finite point the curve object it
    refers to. *)
From Coq Require Import ZArith Bool List.
From Verif Require Import Outcome FieldModel ZpField SpecField ECGroup ECOrder CurveParams EccModel SpecEcc HistModel.
Import ListNotations.
Open Scope Z_scope.

Section Hist.
  Variables (dbg : bool) (C : cparams).
  Notation p := (c_prime C).
  Notation n := (fieldn C).

  (** infinity, or a finite point and its curve object *)
  Definition areg : Type := option ((Fp p * Fp p) * Z).
  Definition apt (r : areg) : ept p := option_map fst r.
  Definition tied (E : ept p) (c : Z) : areg := option_map (fun e => (e, c)) E.

  Record astate := mka { alive_ : Z -> bool; ap : nat -> areg; asc : nat -> Fp n; aout : list seen }.
  Definition aset (s : astate) (i : nat) (r : areg) : astate :=
    mka (alive_ s) (fun k => if Nat.eqb k i then r else ap s k) (asc s) (aout s).
  Definition ascal (s : astate) (t : nat -> Fp n) : astate := mka (alive_ s) (ap s) t (aout s).
  Definition aprint (s : astate) (o : seen) : astate := mka (alive_ s) (ap s) (asc s) (o :: aout s).

  (** what becomes of a program: it goes on, it faults, or a subtraction with the point at infinity makes a point object that
      is no point of the curve or has no curve object *)
  Inductive aresult := Goes (s : astate) | Faults (f : fault) | Leaves.

  (** every assert looks at both curve objects; the doubling formula needs that of its operand *)
  Definition aadd (live : Z -> bool) (a b : areg) : areg + fault :=
    match a, b with
    | None, _ => inl b
    | _, None => inl a
    | Some (P, c), Some (Q, c') =>
        if dbg && negb (live c && live c') then inr UseAfterFree
        else if ept_dec p (Some P) (Some Q) then (if live c then inl (tied (gadd C (Some P) (Some Q)) c) else inr UseAfterFree)
        else inl (tied (gadd C (Some P) (Some Q)) c)
    end.
  (** [None]: the result is no point of the curve, or has no curve object *)
  Definition asub (live : Z -> bool) (a b : areg) : option (areg + fault) :=
    match a, b with
    | Some (P, c), Some (Q, c') =>
        if dbg && negb (live c && live c') then Some (inr UseAfterFree)
        else if ept_dec p (Some P) (gneg C (Some Q)) then
          (if live c then Some (inl (tied (gadd C (Some P) (gneg C (Some Q))) c)) else Some (inr UseAfterFree))
        else Some (inl (tied (gadd C (Some P) (gneg C (Some Q))) c))
    | Some (P, c), None => if dbg then Some (inr (if live c then NullDeref else UseAfterFree)) else None
    | None, _ => if dbg then Some (inr NullDeref) else None
    end.
  Definition amul (live : Z -> bool) (a : areg) (k : Z) : areg + fault :=
    match a with
    | None => inl None
    | Some (P, c) => if (k <=? 1) || live c then inl (tied (gmul C k (Some P)) c) else inr UseAfterFree
    end.

  (** the point with abscissa [x] whose ordinate is a square, respectively is not; infinity if there is no point *)
  Definition square (y : Fp p) : Prop := exists z, val p y = (z * z) mod p.
  Definition looked (x : Z) (b : bool) (E : ept p) : Prop :=
    match E with
    | None => forall y, ~ equation C x y
    | Some (X, Y) => X = mk p x /\ equation C x (val p Y) /\ if b then square Y else ~ square Y
    end.
  (** the abscissa, doubled, and one more if the ordinate is a square *)
  Definition encoded (e : Fp p * Fp p) (z : Z) : Prop :=
    (square (snd e) /\ z = 2 * val p (fst e) + 1) \/ (~ square (snd e) /\ z = 2 * val p (fst e)).

  Definition put (s : astate) (i : nat) (r : areg + fault) : aresult :=
    match r with inl a => Goes (aset s i a) | inr f => Faults f end.

  Definition astep (s : astate) (h : hinstr) (r : aresult) : Prop :=
    let live := alive_ s in
    match h with
    | HCurve c b => r = Goes (mka (fun a => if a =? c then b else live a) (ap s) (asc s) (aout s))
    | HInf i => r = put s i (inl None)
    | HGen i c => r = put s i (if live c then inl (tied (ggen C) c) else inr UseAfterFree)
    | HCopy i j => r = put s i (inl (ap s j))
    | HAdd i j k => r = put s i (aadd live (ap s j) (ap s k))
    | HSub i j k => r = match asub live (ap s j) (ap s k) with Some x => put s i x | None => Leaves end
    | HDouble i j =>
        r = put s i (match ap s j with
                     | None => inr NullDeref
                     | Some (P, c) => if live c then inl (tied (gadd C (Some P) (Some P)) c) else inr UseAfterFree
                     end)
    | HMul i j t => r = put s i (amul live (ap s j) (val n (asc s t)))
    | HMulz i j a => r = put s i (amul live (ap s j) (a mod c_order C))
    | HRandom i c d => r = put s i (if live c then inl (tied (gmul C d (ggen C)) c) else inr UseAfterFree)
    | HLookup i c x b =>
        if live c then exists E, looked x b E /\ r = Goes (aset s i (tied E c)) else r = Faults UseAfterFree
    | HDecode i e =>
        match ap s i with
        | None => r = Faults NullDeref
        | Some (_, c) => if live c then exists E, looked (e / 2) (Z.odd e) E /\ r = Goes (aset s i (tied E c)) else r = Faults UseAfterFree
        end
    | HScalar t a => r = Goes (ascal s (rset n (asc s) t (mk n a)))
    | HRandomS t c d => r = if live c then Goes (ascal s (rset n (asc s) t (mk n d))) else Faults UseAfterFree
    | HField f => r = match rexec n (asc s) f with Some t => Goes (ascal s t) | None => Faults NoInverse end
    | HEqual i j =>
        r = if ept_dec p (apt (ap s i)) (apt (ap s j)) then
              match ap s i, ap s j with
              | Some (_, c), Some (_, c') => if live c && live c' then Goes (aprint s (SBool true)) else Faults UseAfterFree
              | _, _ => Goes (aprint s (SBool true))
              end
            else Goes (aprint s (SBool false))
    | HValid i =>
        r = match ap s i with
            | Some (_, c) => if live c then Goes (aprint s (SBool true)) else Faults UseAfterFree
            | None => Goes (aprint s (SBool true))
            end
    | HEncode i =>
        match ap s i with
        | None => r = Faults NullDeref
        | Some (e, c) => if live c then exists z, encoded e z /\ r = Goes (aprint s (SInt z)) else r = Faults UseAfterFree
        end
    end.

  Fixpoint arun (l : list hinstr) (s : astate) (r : aresult) : Prop :=
    match l with
    | [] => r = Goes s
    | h :: l' => exists o, astep s h o /\ match o with Goes s' => arun l' s' r | _ => r = o end
    end.

  (** a point object is the mathematical point, tied to the curve object *)
  Definition holds (P : point) (r : areg) : Prop :=
    match r with
    | None => P = pt_inf C
    | Some (x, y, c) => P = mkpoint (mkfe (val p x) (fieldp C)) (mkfe (val p y) (fieldp C)) false (Some c) /\ equation C (val p x) (val p y)
    end.
  Definition tracks (s : hstate) (a : astate) : Prop :=
    hlive s = alive_ a /\ (forall i, holds (hpt s i) (ap a i)) /\ reps n (hsc s) (asc a) /\ hout s = aout a.

  (** all variables default-constructed *)
  Definition hstart (live : Z -> bool) : hstate := mkh live (fun _ => pt_inf C) (fun _ => fe_default n) [].
  Definition astart (live : Z -> bool) : astate := mka live (fun _ => None) (fun _ => mk n 0) [].

  (** the curve objects an instruction names *)
  Definition names (h : hinstr) : list Z :=
    match h with HGen _ c | HRandom _ c _ | HLookup _ c _ _ | HRandomS _ c _ => [c] | _ => [] end.
  (** no curve object is destroyed, and those named are live *)
  Fixpoint careful (live : Z -> bool) (l : list hinstr) : Prop :=
    match l with
    | [] => True
    | HCurve c b :: l' => b = true /\ careful (fun a => if a =? c then b else live a) l'
    | h :: l' => (forall c, In c (names h) -> live c = true) /\ careful live l'
    end.
  (** the curve objects of the variables are live *)
  Definition anchored (s : astate) : Prop := forall i, match ap s i with Some (_, c) => alive_ s c = true | None => True end.
End Hist.
