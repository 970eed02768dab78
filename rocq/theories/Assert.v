(** assert/assert.go: the test helper package, on Go values as package reflect and
    the operator == see them. *)
From Verif Require Export GoStr.

(** ** Go values *)
(** The kinds of values that refer to something else. *)
Inductive ref_kind := RPtr | RChan | RUnsafe | RMap | RSlice | RFunc.
(** Go types; [name] makes two types with the same structure different. *)
Inductive gtype :=
| TBasic (k : nat) (name : nat)                      (* bool, int8, ..., string: [k] tells which *)
| TFloat (k : nat) (name : nat)                      (* float32, float64 *)
| TRef (k : ref_kind) (name : nat)
| TArray (name : nat) (len : nat) (elem : gtype)
| TStruct (name : nat) (fields : list gtype)
| TIface (name : nat).
(** A value: basic values by their payload (two are equal if their payloads are);
    a float is NaN or the number it is; a reference is nil or an address; an
    interface is nil or holds a value. *)
Inductive gval :=
| VBasic (k name : nat) (payload : str)
| VFloat (k name : nat) (x : option Z)               (* None: NaN; [Some] identifies the number, one for +0 and -0 *)
| VRef (k : ref_kind) (name : nat) (addr : option nat)
| VArray (name : nat) (elem : gtype) (vs : list gval)
| VStruct (name : nat) (fields : list gval)
| VIface (name : nat) (v : option gval).
(** reflect.TypeOf *)
Fixpoint type_of (v : gval) : gtype :=
  match v with
  | VBasic k n _ => TBasic k n
  | VFloat k n _ => TFloat k n
  | VRef k n _ => TRef k n
  | VArray n e vs => TArray n (length vs) e
  | VStruct n fs => TStruct n (map type_of fs)
  | VIface n _ => TIface n
  end.
Definition ref_kind_eqb (a b : ref_kind) : bool :=
  match a, b with RPtr, RPtr | RChan, RChan | RUnsafe, RUnsafe | RMap, RMap | RSlice, RSlice | RFunc, RFunc => true | _, _ => false end.
Fixpoint gtype_eqb (a b : gtype) : bool :=
  match a, b with
  | TBasic k n, TBasic k' n' | TFloat k n, TFloat k' n' => (k =? k') && (n =? n')
  | TRef k n, TRef k' n' => ref_kind_eqb k k' && (n =? n')
  | TArray n l e, TArray n' l' e' => (n =? n') && (l =? l') && gtype_eqb e e'
  | TStruct n fs, TStruct n' fs' => (n =? n') &&
      (fix eqs xs ys := match xs, ys with [], [] => true | x :: xs, y :: ys => gtype_eqb x y && eqs xs ys | _, _ => false end) fs fs'
  | TIface n, TIface n' => n =? n'
  | _, _ => false
  end.
(** reflect.Type.Comparable *)
Fixpoint comparable (t : gtype) : bool :=
  match t with
  | TRef (RMap | RSlice | RFunc) _ => false
  | TArray _ _ e => comparable e
  | TStruct _ fs => forallb comparable fs
  | _ => true
  end.
(** The reflect.Kind of a type, as far as kinds are compared *)
Definition kind_num (t : gtype) : nat * nat :=
  match t with
  | TBasic k _ => (0, k)
  | TFloat k _ => (1, k)
  | TRef RPtr _ => (2, 0) | TRef RChan _ => (2, 1) | TRef RUnsafe _ => (2, 2)
  | TRef RMap _ => (2, 3) | TRef RSlice _ => (2, 4) | TRef RFunc _ => (2, 5)
  | TArray _ _ _ => (3, 0)
  | TStruct _ _ => (4, 0)
  | TIface _ => (5, 0)
  end.
(** An [any]: nil, or a value that is not an interface.  [kind_code] is
    reflect.ValueOf(x).Kind(), with [None] for reflect.Invalid. *)
Notation any := (option gval).
Definition kind_code (o : any) : option (nat * nat) := option_map (fun v => kind_num (type_of v)) o.
(** What an interface holds (reflect.Value.Elem); other values are themselves. *)
Definition held (v : gval) : any := match v with VIface _ o => o | _ => Some v end.
Definition nat_eqb_opt (a b : option nat) : bool :=
  match a, b with None, None => true | Some x, Some y => x =? y | _, _ => false end.

(** reflect.Value.Equal (package reflect of Go 1.23): interfaces are replaced by
    what they hold; then nil is equal to nil only, and values of different types
    are not equal; arrays and structs are compared from left to right up to the
    first difference; maps, slices and functions panic. *)
Fixpoint value_equal (v u : gval) : res bool :=
  let rows := fix rows (vs us : list gval) : res bool :=
    match vs, us with
    | v :: vs, u :: us => res_bind (value_equal v u) (fun b => if b then rows vs us else Ok false)
    | _, _ => Ok true
    end in
  match v with
  | VIface _ None => Ok (match held u with None => true | Some _ => false end)
  | VIface _ (Some v) => value_equal v u
  | _ =>
    match held u with
    | None => Ok false
    | Some u =>
      if negb (gtype_eqb (type_of v) (type_of u)) then Ok false
      else match v, u with
           | VBasic _ _ p, VBasic _ _ q => Ok (str_eqb p q)
           | VFloat _ _ (Some x), VFloat _ _ (Some y) => Ok (x =? y)%Z
           | VFloat _ _ _, VFloat _ _ _ => Ok false
           | VRef (RMap | RSlice | RFunc) _ _, _ => Panic
           | VRef _ _ a, VRef _ _ b => Ok (nat_eqb_opt a b)
           | VArray _ e [], VArray _ _ _ => if comparable e then Ok true else Panic
           | VArray _ _ vs, VArray _ _ us => rows vs us
           | VStruct _ vs, VStruct _ us => rows vs us
           | _, _ => Ok false
           end
    end
  end.
(** The same for two [any]s, [reflect.ValueOf(v).Equal(reflect.ValueOf(u))]: the
    Value of a nil [any] is not valid *)
Definition any_equal (v u : any) : res bool :=
  match v, u with
  | None, None => Ok true
  | Some v, Some u => value_equal v u
  | _, _ => Ok false
  end.

(** ** The assertions *)
(** How a call ends: it returns, or testing.T.Fatalf has marked the test as failed
    and ended its goroutine, or it panics. *)
Inductive outcome := Passed | Failed | Panicked.
Definition fatal_unless (r : res bool) : outcome :=
  match r with Ok true => Passed | Ok false => Failed | _ => Panicked end.
Definition fatal_if (r : res bool) : outcome :=
  match r with Ok true => Failed | Ok false => Passed | _ => Panicked end.

(** assert.go:154-163 [isNil]; reflect.Value.IsNil panics for arrays *)
Definition is_nil (i : any) : res bool :=
  match i with
  | None => Ok true
  | Some (VRef (RPtr | RMap | RChan | RSlice) _ a) => Ok (match a with None => true | Some _ => false end)
  | Some (VArray _ _ _) => Panic
  | Some _ => Ok false
  end.
Definition kinds_match (a b : option (nat * nat)) : bool :=
  match a, b with None, None => true | Some (x, y), Some (x', y') => (x =? x') && (y =? y') | _, _ => false end.
(** assert.go:24-36 [Nil], 38-50 [NotNil] *)
Definition assert_nil (v : any) : outcome := fatal_unless (is_nil v).
Definition assert_not_nil (v : any) : outcome := fatal_if (is_nil v).
(** assert.go:52-65 [Equal], 67-80 [NotEqual]; && and || do not evaluate Equal if the
    kinds differ *)
Definition assert_equal (v e : any) : outcome :=
  fatal_unless (if kinds_match (kind_code v) (kind_code e) then any_equal v e else Ok false).
Definition assert_not_equal (v e : any) : outcome :=
  fatal_if (if kinds_match (kind_code v) (kind_code e) then any_equal v e else Ok false).
(** assert.go:82-94 [Error], 96-108 [NoError]: comparison with the nil interface *)
Definition assert_error (err : any) : outcome := match err with Some _ => Passed | None => Failed end.
Definition assert_no_error (err : any) : outcome := match err with None => Passed | Some _ => Failed end.
(** assert.go:110-122 [Require] *)
Definition assert_require (ok : bool) : outcome := if ok then Passed else Failed.

(** How a function value ends when called: it returns, it panics, or it ends the
    goroutine (runtime.Goexit, as testing.T.FailNow and SkipNow do). *)
Inductive ending := Returns | Panics | Exits.
(** What the caller sees: the call returned, the test was failed by the helper, the
    goroutine has ended otherwise. *)
Inductive finish := Returned | FailedTest | GoneExit.
(** assert.go:138-152 [Call]: [didPanic], or [None] if it does not return; the
    deferred function runs in all cases and recovers a panic, not an exit *)
Definition call {W} (fn : W -> W * ending) (w : W) : W * option bool :=
  match fn w with
  | (w', Returns) => (w', Some false)
  | (w', Panics) => (w', Some true)
  | (w', Exits) => (w', None)
  end.
(** assert.go:124-129 [NoPanic], 131-136 [Panic] *)
Definition assert_no_panic {W} (fn : W -> W * ending) (w : W) : W * finish :=
  match call fn w with
  | (w', Some true) => (w', FailedTest)
  | (w', Some false) => (w', Returned)
  | (w', None) => (w', GoneExit)
  end.
Definition assert_panic {W} (fn : W -> W * ending) (w : W) : W * finish :=
  match call fn w with
  | (w', Some true) => (w', Returned)
  | (w', Some false) => (w', FailedTest)
  | (w', None) => (w', GoneExit)
  end.
