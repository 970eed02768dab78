(** The files of goast itself: the library.
    Written by a program from /repo; each file is a sentence of the grammar of C75
    (so the theorems of C75 speak of it), and its text is the text of the file. *)
From Verif Require Import SpecGo GoProofs GoLayout GoCheck P_Go.

(** /repo/assert/assert.go *)
Definition repo_assert_assert : list item := [(DOther $"package" (shown $" assert"), 1);
  (DOther $"import" (shown $" (
	""reflect""
	""runtime/debug""
	""strings""
	""testing""
)"), 1);
  (DStruct $"Assert" [] [FieldRow $"t" [] 0 (TWord $"*testing.T") PNil None None] None, 1);
  (DFunc None $"New" [] (Flat (PCons (Some $"t") (TWord $"*testing.T") PNil)) (ROne (TWord $"Assert")) (Some (shown $"
	return Assert{
		t: t,
	}
")) None, 1);
  (DFunc (Some ((Some $"a"), (TWord $"Assert"))) $"T" [] (Flat PNil) (ROne (TWord $"*testing.T")) (Some (shown $"
	return a.t
")) None, 1);
  (DFunc (Some ((Some $"a"), (TWord $"Assert"))) $"Nil" [] (Flat (PCons (Some $"value") (TWord $"any") (PCons (Some $"msg") (TWord $"...string") PNil))) RNone (Some (shown $"
	if a.isNil(value) {
		return
	}

	a.t.Helper()

	if len(msg) != 0 {
		a.t.Fatalf(""%s: should be nil, but got (%+v), %s"", a.t.Name(), value, strings.Join(msg, "" ""))
	}

	a.t.Fatalf(""%s: should be nil, but got (%+v)"", a.t.Name(), value)
")) None, 1);
  (DFunc (Some ((Some $"a"), (TWord $"Assert"))) $"NotNil" [] (Flat (PCons (Some $"value") (TWord $"any") (PCons (Some $"msg") (TWord $"...string") PNil))) RNone (Some (shown $"
	if !a.isNil(value) {
		return
	}

	a.t.Helper()

	if len(msg) != 0 {
		a.t.Fatalf(""%s: should be not nil, but got (%+v), %s"", a.t.Name(), value, strings.Join(msg, "" ""))
	}

	a.t.Fatalf(""%s: should be not nil, but got (%+v)"", a.t.Name(), value)
")) None, 1);
  (DFunc (Some ((Some $"a"), (TWord $"Assert"))) $"Equal" [] (Flat (PCons None (TWord $"value") (PCons (Some $"expected") (TWord $"any") (PCons (Some $"msg") (TWord $"...string") PNil)))) RNone (Some (shown $"
	rv, re := reflect.ValueOf(value), reflect.ValueOf(expected)
	if rv.Kind() == re.Kind() && rv.Equal(re) {
		return
	}

	a.t.Helper()

	if len(msg) != 0 {
		a.t.Fatalf(""%s: should be equal, but got value: (%+v), expected: (%+v), %s"", a.t.Name(), value, expected, strings.Join(msg, "" ""))
	}

	a.t.Fatalf(""%s: should be equal, but got value: (%+v), expected: (%+v)"", a.t.Name(), value, expected)
")) None, 1);
  (DFunc (Some ((Some $"a"), (TWord $"Assert"))) $"NotEqual" [] (Flat (PCons None (TWord $"value") (PCons (Some $"expected") (TWord $"any") (PCons (Some $"msg") (TWord $"...string") PNil)))) RNone (Some (shown $"
	rv, re := reflect.ValueOf(value), reflect.ValueOf(expected)
	if rv.Kind() != re.Kind() || !rv.Equal(re) {
		return
	}

	a.t.Helper()

	if len(msg) != 0 {
		a.t.Fatalf(""%s: should be no equal, but got value: (%+v), expected: (%+v), %s"", a.t.Name(), value, expected, strings.Join(msg, "" ""))
	}

	a.t.Fatalf(""%s: should be no equal, but got value: (%+v), expected: (%+v)"", a.t.Name(), value, expected)
")) None, 1);
  (DFunc (Some ((Some $"a"), (TWord $"Assert"))) $"Error" [] (Flat (PCons (Some $"err") (TWord $"error") (PCons (Some $"msg") (TWord $"...string") PNil))) RNone (Some (shown $"
	if err != nil {
		return
	}

	a.t.Helper()

	if len(msg) != 0 {
		a.t.Fatalf(""%s: should be error, %s"", a.t.Name(), strings.Join(msg, "" ""))
	}

	a.t.Fatalf(""%s: should be error"", a.t.Name())
")) None, 1);
  (DFunc (Some ((Some $"a"), (TWord $"Assert"))) $"NoError" [] (Flat (PCons (Some $"err") (TWord $"error") (PCons (Some $"msg") (TWord $"...string") PNil))) RNone (Some (shown $"
	if err == nil {
		return
	}

	a.t.Helper()

	if len(msg) != 0 {
		a.t.Fatalf(""%s: should be no error, %s, err: %+v"", a.t.Name(), strings.Join(msg, "" ""), err)
	}

	a.t.Fatalf(""%s:should be no error, err: %+v"", a.t.Name(), err)
")) None, 1);
  (DFunc (Some ((Some $"a"), (TWord $"Assert"))) $"Require" [] (Flat (PCons (Some $"ok") (TWord $"bool") (PCons (Some $"msg") (TWord $"...string") PNil))) RNone (Some (shown $"
	if ok {
		return
	}

	a.t.Helper()

	if len(msg) != 0 {
		a.t.Fatalf(""require: %s, %s"", a.t.Name(), strings.Join(msg, "" ""))
	}

	a.t.Fatalf(""require: %s"", a.t.Name())
")) None, 1);
  (DFunc (Some ((Some $"a"), (TWord $"Assert"))) $"NoPanic" [] (Flat (PCons (Some $"fn") (TFunc PNil) PNil)) RNone (Some (shown $"
	a.t.Helper()
	if ok, msg, _ := a.Call(fn); ok {
		a.t.Fatalf(""%s: should be no panic, err: %s"", a.t.Name(), msg)
	}
")) None, 1);
  (DFunc (Some ((Some $"a"), (TWord $"Assert"))) $"Panic" [] (Flat (PCons (Some $"fn") (TFunc PNil) PNil)) RNone (Some (shown $"
	a.t.Helper()
	if ok, msg, _ := a.Call(fn); !ok {
		a.t.Fatalf(""%s: should be panic, err: %s"", a.t.Name(), msg)
	}
")) None, 1);
  (DFunc (Some (None, (TWord $"Assert"))) $"Call" [] (Flat (PCons (Some $"fn") (TFunc PNil) PNil)) (RMany (Flat (PCons (Some $"didPanic") (TWord $"bool") (PCons (Some $"message") (TEmpty $"interface") (PCons (Some $"stack") (TWord $"string") PNil))))) (Some (shown $"
	didPanic = true
	defer func() {
		message = recover()
		if didPanic {
			stack = string(debug.Stack())
		}
	}()

	// call the target function
	fn()
	didPanic = false

	return
")) None, 1);
  (DFunc (Some (None, (TWord $"Assert"))) $"isNil" [] (Flat (PCons (Some $"i") (TWord $"any") PNil)) (ROne (TWord $"bool")) (Some (shown $"
	if i == nil {
		return true
	}
	switch reflect.TypeOf(i).Kind() {
	case reflect.Ptr, reflect.Map, reflect.Array, reflect.Chan, reflect.Slice:
		return reflect.ValueOf(i).IsNil()
	}
	return false
")) None, 0)].
Example C75_repo_assert_assert_ok : file_ok repo_assert_assert.
Proof. apply (forallb_ok (fun i => decl_okb (fst i))); [intros [d k]; apply decl_okb_ok|]. vm_compute. reflexivity. Qed.
Example C75_repo_assert_assert_text : file_text repo_assert_assert = $"package assert

import (
	""reflect""
	""runtime/debug""
	""strings""
	""testing""
)

type Assert struct {
	t *testing.T
}

func New(t *testing.T) Assert {
	return Assert{
		t: t,
	}
}

func (a Assert) T() *testing.T {
	return a.t
}

func (a Assert) Nil(value any, msg ...string) {
	if a.isNil(value) {
		return
	}

	a.t.Helper()

	if len(msg) != 0 {
		a.t.Fatalf(""%s: should be nil, but got (%+v), %s"", a.t.Name(), value, strings.Join(msg, "" ""))
	}

	a.t.Fatalf(""%s: should be nil, but got (%+v)"", a.t.Name(), value)
}

func (a Assert) NotNil(value any, msg ...string) {
	if !a.isNil(value) {
		return
	}

	a.t.Helper()

	if len(msg) != 0 {
		a.t.Fatalf(""%s: should be not nil, but got (%+v), %s"", a.t.Name(), value, strings.Join(msg, "" ""))
	}

	a.t.Fatalf(""%s: should be not nil, but got (%+v)"", a.t.Name(), value)
}

func (a Assert) Equal(value, expected any, msg ...string) {
	rv, re := reflect.ValueOf(value), reflect.ValueOf(expected)
	if rv.Kind() == re.Kind() && rv.Equal(re) {
		return
	}

	a.t.Helper()

	if len(msg) != 0 {
		a.t.Fatalf(""%s: should be equal, but got value: (%+v), expected: (%+v), %s"", a.t.Name(), value, expected, strings.Join(msg, "" ""))
	}

	a.t.Fatalf(""%s: should be equal, but got value: (%+v), expected: (%+v)"", a.t.Name(), value, expected)
}

func (a Assert) NotEqual(value, expected any, msg ...string) {
	rv, re := reflect.ValueOf(value), reflect.ValueOf(expected)
	if rv.Kind() != re.Kind() || !rv.Equal(re) {
		return
	}

	a.t.Helper()

	if len(msg) != 0 {
		a.t.Fatalf(""%s: should be no equal, but got value: (%+v), expected: (%+v), %s"", a.t.Name(), value, expected, strings.Join(msg, "" ""))
	}

	a.t.Fatalf(""%s: should be no equal, but got value: (%+v), expected: (%+v)"", a.t.Name(), value, expected)
}

func (a Assert) Error(err error, msg ...string) {
	if err != nil {
		return
	}

	a.t.Helper()

	if len(msg) != 0 {
		a.t.Fatalf(""%s: should be error, %s"", a.t.Name(), strings.Join(msg, "" ""))
	}

	a.t.Fatalf(""%s: should be error"", a.t.Name())
}

func (a Assert) NoError(err error, msg ...string) {
	if err == nil {
		return
	}

	a.t.Helper()

	if len(msg) != 0 {
		a.t.Fatalf(""%s: should be no error, %s, err: %+v"", a.t.Name(), strings.Join(msg, "" ""), err)
	}

	a.t.Fatalf(""%s:should be no error, err: %+v"", a.t.Name(), err)
}

func (a Assert) Require(ok bool, msg ...string) {
	if ok {
		return
	}

	a.t.Helper()

	if len(msg) != 0 {
		a.t.Fatalf(""require: %s, %s"", a.t.Name(), strings.Join(msg, "" ""))
	}

	a.t.Fatalf(""require: %s"", a.t.Name())
}

func (a Assert) NoPanic(fn func()) {
	a.t.Helper()
	if ok, msg, _ := a.Call(fn); ok {
		a.t.Fatalf(""%s: should be no panic, err: %s"", a.t.Name(), msg)
	}
}

func (a Assert) Panic(fn func()) {
	a.t.Helper()
	if ok, msg, _ := a.Call(fn); !ok {
		a.t.Fatalf(""%s: should be panic, err: %s"", a.t.Name(), msg)
	}
}

func (Assert) Call(fn func()) (didPanic bool, message interface{}, stack string) {
	didPanic = true
	defer func() {
		message = recover()
		if didPanic {
			stack = string(debug.Stack())
		}
	}()

	// call the target function
	fn()
	didPanic = false

	return
}

func (Assert) isNil(i any) bool {
	if i == nil {
		return true
	}
	switch reflect.TypeOf(i).Kind() {
	case reflect.Ptr, reflect.Map, reflect.Array, reflect.Chan, reflect.Slice:
		return reflect.ValueOf(i).IsNil()
	}
	return false
}
".
Proof. vm_compute. reflexivity. Qed.

(** /repo/ast.go *)
Definition repo_ast : list item := [(DOther $"package" (shown $" goast"), 1);
  (DOther $"import" (shown $" (
	""bytes""
	""errors""
	""os""
	""path/filepath""
	""strings""

	""github.com/yanun0323/goast/helper""
	""github.com/yanun0323/goast/kind""
	""github.com/yanun0323/goast/scope""
)"), 1);
  (DOther $"var" (shown $" (
	ErrNoPackage = errors.New(""no package name"")
	ErrNotExist  = errors.New(""file no exist"")
)"), 1);
  (DInterface $"Ast" [] [IComment $" Package returns the package name."; IComment $""; IComment $" If the package name is not found, it returns ErrNoPackage."; IMethod $"Package" (Flat PNil) (RMany (Flat (PCons None (TWord $"string") (PCons None (TWord $"error") PNil)))) None; IBlank; IComment $" File returns the file path of the ast."; IMethod $"File" (Flat PNil) (ROne (TWord $"string")) None; IBlank; IComment $" Dir returns the directory path of the ast."; IMethod $"Dir" (Flat PNil) (ROne (TWord $"string")) None; IBlank; IComment $" Name returns the filename of the ast."; IMethod $"Filename" (Flat PNil) (ROne (TWord $"string")) None; IBlank; IComment $" Ext returns the file extension of the ast."; IMethod $"Ext" (Flat PNil) (ROne (TWord $"string")) None; IBlank; IComment $" Scope returns the scope of the ast."; IMethod $"Scope" (Flat PNil) (ROne (TSlice (TWord $"Scope"))) None; IBlank; IComment $" IterScope iterates over the scope of the ast."; IMethod $"IterScope" (Flat (PCons None (TFuncR (PCons None (TWord $"Scope") PNil) (TWord $"bool")) PNil)) RNone None; IBlank; IComment $" SetScope sets the given scope to the copy of the ast."; IMethod $"SetScope" (Flat (PCons None (TSlice (TWord $"Scope")) PNil)) (ROne (TWord $"Ast")) None; IBlank; IComment $" AppendScope appends the given scope to the ast."; IMethod $"AppendScope" (Flat (PCons None (TWord $"...Scope") PNil)) RNone None; IBlank; IComment $" Description returns a description of the ast."; IMethod $"Description" (Flat PNil) (ROne (TWord $"string")) None; IBlank; IComment $" Save saves the ast to the given file."; IComment $""; IComment $" If the autoImport equals true, it will auto import the package."; IMethod $"Save" (Flat (PCons (Some $"file") (TWord $"string") (PCons (Some $"autoImport") (TWord $"...bool") PNil))) (ROne (TWord $"error")) None; IBlank; IComment $" Copy returns a copy of the ast"; IMethod $"Copy" (Flat PNil) (ROne (TWord $"Ast")) None] None, 1);
  (DLineComment $" ParseAst parses the given file and returns an Ast.", 0);
  (DLineComment $"", 0);
  (DLineComment $" If the file does not exist, it returns ErrNotExist.", 0);
  (DLineComment $"", 0);
  (DLineComment $" If the file is not a valid Go file, it returns ErrInvalidFile.", 0);
  (DFunc None $"ParseAst" [] (Flat (PCons (Some $"file") (TWord $"string") PNil)) (RMany (Flat (PCons None (TWord $"Ast") (PCons None (TWord $"error") PNil)))) (Some (shown $"
	data, err := helper.ReadFile(file)
	if err != nil {
		if errors.Is(err, os.ErrNotExist) {
			return nil, ErrNotExist
		}

		return nil, err
	}

	scs, err := ParseScope(0, data)
	if err != nil {
		return nil, err
	}

	if _, err := findPackageName(scs); err != nil {
		return nil, err
	}

	result := &ast{
		file:  file,
		dir:   filepath.Dir(file),
		name:  filepath.Base(file),
		ext:   filepath.Ext(file),
		scope: scs,
	}

	return result, nil
")) None, 1);
  (DFunc None $"findPackageName" [] (Flat (PCons (Some $"scs") (TSlice (TWord $"Scope")) PNil)) (RMany (Flat (PCons None (TWord $"string") (PCons None (TWord $"error") PNil)))) (Some (shown $"
	var packageScope Scope
	for _, sc := range scs {
		if sc.Kind() == scope.Package {
			packageScope = sc
			break
		}
	}

	if packageScope == nil {
		return """", ErrNoPackage
	}

	packageKeywordAppeared := false
	result := packageScope.Node().IterNext(func(n *Node) bool {
		if packageKeywordAppeared && n.Kind() == kind.Raw {
			return false
		}

		if n.Kind() == kind.Package {
			packageKeywordAppeared = true
		}

		return true
	})

	return result.Text(), nil
")) None, 1);
  (DStruct $"ast" [] [FieldRow $"file" [] 1 (TWord $"string") PNil None None; FieldRow $"dir" [] 2 (TWord $"string") PNil None None; FieldRow $"name" [] 1 (TWord $"string") PNil None None; FieldRow $"ext" [] 2 (TWord $"string") PNil None None; FieldRow $"scope" [] 0 (TSlice (TWord $"Scope")) PNil None None] None, 1);
  (DLineComment $" NewAst creates a new Ast with the given scope.", 0);
  (DFunc None $"NewAst" [] (Flat (PCons (Some $"scope") (TWord $"...Scope") PNil)) (RMany (Flat (PCons None (TWord $"Ast") (PCons None (TWord $"error") PNil)))) (Some (shown $"
	if _, err := findPackageName(scope); err != nil {
		return nil, err
	}

	return &ast{
		scope: scope,
	}, nil
")) None, 1);
  (DFunc (Some ((Some $"f"), (TWord $"*ast"))) $"Package" [] (Flat PNil) (RMany (Flat (PCons None (TWord $"string") (PCons None (TWord $"error") PNil)))) (Some (shown $"
	return findPackageName(f.scope)
")) None, 1);
  (DFunc (Some ((Some $"f"), (TWord $"*ast"))) $"File" [] (Flat PNil) (ROne (TWord $"string")) (Some (shown $"
	if f == nil {
		return """"
	}

	return f.file
")) None, 1);
  (DFunc (Some ((Some $"f"), (TWord $"*ast"))) $"Dir" [] (Flat PNil) (ROne (TWord $"string")) (Some (shown $"
	if f == nil {
		return """"
	}

	return f.dir
")) None, 1);
  (DFunc (Some ((Some $"f"), (TWord $"*ast"))) $"Filename" [] (Flat PNil) (ROne (TWord $"string")) (Some (shown $"
	if f == nil {
		return """"
	}

	return f.name
")) None, 1);
  (DFunc (Some ((Some $"f"), (TWord $"*ast"))) $"Ext" [] (Flat PNil) (ROne (TWord $"string")) (Some (shown $"
	if f == nil {
		return """"
	}

	return f.ext
")) None, 1);
  (DFunc (Some ((Some $"f"), (TWord $"*ast"))) $"Scope" [] (Flat PNil) (ROne (TSlice (TWord $"Scope"))) (Some (shown $"
	if f == nil {
		return nil
	}

	return f.scope
")) None, 1);
  (DFunc (Some ((Some $"f"), (TWord $"*ast"))) $"IterScope" [] (Flat (PCons (Some $"fn") (TFuncR (PCons None (TWord $"Scope") PNil) (TWord $"bool")) PNil)) RNone (Some (shown $"
	for _, sc := range f.scope {
		if !fn(sc) {
			return
		}
	}
")) None, 1);
  (DFunc (Some ((Some $"f"), (TWord $"*ast"))) $"SetScope" [] (Flat (PCons (Some $"scope") (TSlice (TWord $"Scope")) PNil)) (ROne (TWord $"Ast")) (Some (shown $"
	return &ast{
		file:  f.file,
		dir:   f.dir,
		name:  f.name,
		ext:   f.ext,
		scope: scope,
	}
")) None, 1);
  (DFunc (Some ((Some $"f"), (TWord $"*ast"))) $"AppendScope" [] (Flat (PCons (Some $"scs") (TWord $"...Scope") PNil)) RNone (Some (shown $"
	f.scope = append(f.scope, scs...)
")) None, 1);
  (DFunc (Some ((Some $"f"), (TWord $"*ast"))) $"Description" [] (Flat PNil) (ROne (TWord $"string")) (Some (shown $"
	buf := strings.Builder{}

	for _, sc := range f.Scope() {
		buf.WriteString(sc.Description())

		sc.Node().IterNext(func(n *Node) bool {
			buf.WriteString(n.Description())
			return true
		})
	}

	return buf.String()
")) None, 1);
  (DFunc (Some ((Some $"f"), (TWord $"*ast"))) $"Save" [] (Flat (PCons (Some $"file") (TWord $"string") (PCons (Some $"autoImport") (TWord $"...bool") PNil))) (ROne (TWord $"error")) (Some (shown $"
	buf := bytes.Buffer{}

	for _, sc := range f.Scope() {
		sc.Node().IterNext(func(n *Node) bool {
			buf.WriteString(n.Text())
			return true
		})
	}

	return helper.SaveFile(file, buf.Bytes(), autoImport...)
")) None, 1);
  (DFunc (Some ((Some $"f"), (TWord $"*ast"))) $"Copy" [] (Flat PNil) (ROne (TWord $"Ast")) (Some (shown $"
	scs := make([]Scope, 0, len(f.scope))
	for _, sc := range f.scope {
		scs = append(scs, sc.Copy())
	}

	return &ast{
		file:  f.file,
		dir:   f.dir,
		name:  f.name,
		ext:   f.ext,
		scope: scs,
	}
")) None, 0)].
Example C75_repo_ast_ok : file_ok repo_ast.
Proof. apply (forallb_ok (fun i => decl_okb (fst i))); [intros [d k]; apply decl_okb_ok|]. vm_compute. reflexivity. Qed.
Example C75_repo_ast_text : file_text repo_ast = $"package goast

import (
	""bytes""
	""errors""
	""os""
	""path/filepath""
	""strings""

	""github.com/yanun0323/goast/helper""
	""github.com/yanun0323/goast/kind""
	""github.com/yanun0323/goast/scope""
)

var (
	ErrNoPackage = errors.New(""no package name"")
	ErrNotExist  = errors.New(""file no exist"")
)

type Ast interface {
	// Package returns the package name.
	//
	// If the package name is not found, it returns ErrNoPackage.
	Package() (string, error)

	// File returns the file path of the ast.
	File() string

	// Dir returns the directory path of the ast.
	Dir() string

	// Name returns the filename of the ast.
	Filename() string

	// Ext returns the file extension of the ast.
	Ext() string

	// Scope returns the scope of the ast.
	Scope() []Scope

	// IterScope iterates over the scope of the ast.
	IterScope(func(Scope) bool)

	// SetScope sets the given scope to the copy of the ast.
	SetScope([]Scope) Ast

	// AppendScope appends the given scope to the ast.
	AppendScope(...Scope)

	// Description returns a description of the ast.
	Description() string

	// Save saves the ast to the given file.
	//
	// If the autoImport equals true, it will auto import the package.
	Save(file string, autoImport ...bool) error

	// Copy returns a copy of the ast
	Copy() Ast
}

// ParseAst parses the given file and returns an Ast.
//
// If the file does not exist, it returns ErrNotExist.
//
// If the file is not a valid Go file, it returns ErrInvalidFile.
func ParseAst(file string) (Ast, error) {
	data, err := helper.ReadFile(file)
	if err != nil {
		if errors.Is(err, os.ErrNotExist) {
			return nil, ErrNotExist
		}

		return nil, err
	}

	scs, err := ParseScope(0, data)
	if err != nil {
		return nil, err
	}

	if _, err := findPackageName(scs); err != nil {
		return nil, err
	}

	result := &ast{
		file:  file,
		dir:   filepath.Dir(file),
		name:  filepath.Base(file),
		ext:   filepath.Ext(file),
		scope: scs,
	}

	return result, nil
}

func findPackageName(scs []Scope) (string, error) {
	var packageScope Scope
	for _, sc := range scs {
		if sc.Kind() == scope.Package {
			packageScope = sc
			break
		}
	}

	if packageScope == nil {
		return """", ErrNoPackage
	}

	packageKeywordAppeared := false
	result := packageScope.Node().IterNext(func(n *Node) bool {
		if packageKeywordAppeared && n.Kind() == kind.Raw {
			return false
		}

		if n.Kind() == kind.Package {
			packageKeywordAppeared = true
		}

		return true
	})

	return result.Text(), nil
}

type ast struct {
	file  string
	dir   string
	name  string
	ext   string
	scope []Scope
}

// NewAst creates a new Ast with the given scope.
func NewAst(scope ...Scope) (Ast, error) {
	if _, err := findPackageName(scope); err != nil {
		return nil, err
	}

	return &ast{
		scope: scope,
	}, nil
}

func (f *ast) Package() (string, error) {
	return findPackageName(f.scope)
}

func (f *ast) File() string {
	if f == nil {
		return """"
	}

	return f.file
}

func (f *ast) Dir() string {
	if f == nil {
		return """"
	}

	return f.dir
}

func (f *ast) Filename() string {
	if f == nil {
		return """"
	}

	return f.name
}

func (f *ast) Ext() string {
	if f == nil {
		return """"
	}

	return f.ext
}

func (f *ast) Scope() []Scope {
	if f == nil {
		return nil
	}

	return f.scope
}

func (f *ast) IterScope(fn func(Scope) bool) {
	for _, sc := range f.scope {
		if !fn(sc) {
			return
		}
	}
}

func (f *ast) SetScope(scope []Scope) Ast {
	return &ast{
		file:  f.file,
		dir:   f.dir,
		name:  f.name,
		ext:   f.ext,
		scope: scope,
	}
}

func (f *ast) AppendScope(scs ...Scope) {
	f.scope = append(f.scope, scs...)
}

func (f *ast) Description() string {
	buf := strings.Builder{}

	for _, sc := range f.Scope() {
		buf.WriteString(sc.Description())

		sc.Node().IterNext(func(n *Node) bool {
			buf.WriteString(n.Description())
			return true
		})
	}

	return buf.String()
}

func (f *ast) Save(file string, autoImport ...bool) error {
	buf := bytes.Buffer{}

	for _, sc := range f.Scope() {
		sc.Node().IterNext(func(n *Node) bool {
			buf.WriteString(n.Text())
			return true
		})
	}

	return helper.SaveFile(file, buf.Bytes(), autoImport...)
}

func (f *ast) Copy() Ast {
	scs := make([]Scope, 0, len(f.scope))
	for _, sc := range f.scope {
		scs = append(scs, sc.Copy())
	}

	return &ast{
		file:  f.file,
		dir:   f.dir,
		name:  f.name,
		ext:   f.ext,
		scope: scs,
	}
}
".
Proof. vm_compute. reflexivity. Qed.

(** /repo/charset/charset.go *)
Definition repo_charset_charset : list item := [(DOther $"package" (shown $" charset"), 1);
  (DType $"Set" (map fst (shown $"T comparable")) false (TMap $"map" (TWord $"T") (TEmpty $"struct")) PNil None, 1);
  (DFunc (Some ((Some $"cs"), (TGeneric $"Set" (PCons None (TWord $"T") PNil)))) $"Contain" [] (Flat (PCons (Some $"key") (TWord $"T") PNil)) (ROne (TWord $"bool")) (Some (shown $"
	if cs == nil {
		return false
	}
	_, ok := cs[key]
	return ok
")) None, 1);
  (DFunc None $"New" (map fst (shown $"T comparable")) (Flat (PCons (Some $"chars") (TWord $"...T") PNil)) (ROne (TGeneric $"Set" (PCons None (TWord $"T") PNil))) (Some (shown $"
	set := make(Set[T], len(chars))
	for _, char := range chars {
		set[char] = struct{}{}
	}
	return set
")) None, 1);
  (DFunc None $"NewSlice" (map fst (shown $"T comparable")) (Flat (PCons (Some $"chars") (TPrefix $"..." (TSlice (TWord $"T"))) PNil)) (ROne (TGeneric $"Set" (PCons None (TWord $"T") PNil))) (Some (shown $"
	set := make(Set[T], len(chars))
	for i := range chars {
		for _, char := range chars[i] {
			set[char] = struct{}{}
		}
	}
	return set
")) None, 1);
  (DOther $"var" (shown $" (
	SeparatorCharset = New[byte](
		' ', '[', ']', '(', ')', '{', '}', ',', ':', ';', '\n', '\t', '\r',
	)

	NumberCharset = New[byte](
		'1', '2', '3', '4', '5', '6', '7', '8', '9', '0',
	)

	GolangKeywords = New(
		""break"",
		""default"",
		""func"",
		""interface"",
		""select"",
		""case"",
		""defer"",
		""go"",
		""map"",
		""struct"",
		""chan"",
		""else"",
		""goto"",
		""package"",
		""switch"",
		""const"",
		""fallthrough"",
		""if"",
		""range"",
		""type"",
		""continue"",
		""for"",
		""import"",
		""return"",
		""var"",
	)

	GolangSymbol = NewSlice[byte](
		[]byte(""+""),
		[]byte(""&""),
		[]byte(""+=""),
		[]byte(""&=""),
		[]byte(""&&""),
		[]byte(""==""),
		[]byte(""!=""),
		[]byte(""(""),
		[]byte("")""),
		[]byte(""-""),
		[]byte(""|""),
		[]byte(""-=""),
		[]byte(""|=""),
		[]byte(""||""),
		[]byte(""<""),
		[]byte(""<=""),
		[]byte(""[""),
		[]byte(""]""),
		[]byte(""*""),
		[]byte(""^""),
		[]byte(""*=""),
		[]byte(""^=""),
		[]byte(""<-""),
		[]byte("">""),
		[]byte("">=""),
		[]byte(""{""),
		[]byte(""}""),
		[]byte(""/""),
		[]byte(""<<""),
		[]byte(""/=""),
		[]byte(""<<=""),
		[]byte(""++""),
		[]byte(""=""),
		[]byte("":=""),
		[]byte("",""),
		[]byte("";""),
		[]byte(""%""),
		[]byte("">>""),
		[]byte(""%=""),
		[]byte("">>=""),
		[]byte(""--""),
		[]byte(""!""),
		[]byte(""...""),
		[]byte("".""),
		[]byte("":""),
		[]byte(""&^""),
		[]byte(""&^=""),
		[]byte(""~""),
		[]byte(""_""),
	)

	GolangBasicType = New(
		""bool"",
		""string"",
		""byte"",
		""rune"",
		""int"",
		""uint"",
		""int8"",
		""uint8"",
		""int16"",
		""uint16"",
		""int32"",
		""uint32"",
		""int64"",
		""uint64"",
		""uintptr"",
		""float32"",
		""float64"",
		""complex64"",
		""complex128"",
	)
)"), 0)].
Example C75_repo_charset_charset_ok : file_ok repo_charset_charset.
Proof. apply (forallb_ok (fun i => decl_okb (fst i))); [intros [d k]; apply decl_okb_ok|]. vm_compute. reflexivity. Qed.
Example C75_repo_charset_charset_text : file_text repo_charset_charset = $"package charset

type Set[T comparable] map[T]struct{}

func (cs Set[T]) Contain(key T) bool {
	if cs == nil {
		return false
	}
	_, ok := cs[key]
	return ok
}

func New[T comparable](chars ...T) Set[T] {
	set := make(Set[T], len(chars))
	for _, char := range chars {
		set[char] = struct{}{}
	}
	return set
}

func NewSlice[T comparable](chars ...[]T) Set[T] {
	set := make(Set[T], len(chars))
	for i := range chars {
		for _, char := range chars[i] {
			set[char] = struct{}{}
		}
	}
	return set
}

var (
	SeparatorCharset = New[byte](
		' ', '[', ']', '(', ')', '{', '}', ',', ':', ';', '\n', '\t', '\r',
	)

	NumberCharset = New[byte](
		'1', '2', '3', '4', '5', '6', '7', '8', '9', '0',
	)

	GolangKeywords = New(
		""break"",
		""default"",
		""func"",
		""interface"",
		""select"",
		""case"",
		""defer"",
		""go"",
		""map"",
		""struct"",
		""chan"",
		""else"",
		""goto"",
		""package"",
		""switch"",
		""const"",
		""fallthrough"",
		""if"",
		""range"",
		""type"",
		""continue"",
		""for"",
		""import"",
		""return"",
		""var"",
	)

	GolangSymbol = NewSlice[byte](
		[]byte(""+""),
		[]byte(""&""),
		[]byte(""+=""),
		[]byte(""&=""),
		[]byte(""&&""),
		[]byte(""==""),
		[]byte(""!=""),
		[]byte(""(""),
		[]byte("")""),
		[]byte(""-""),
		[]byte(""|""),
		[]byte(""-=""),
		[]byte(""|=""),
		[]byte(""||""),
		[]byte(""<""),
		[]byte(""<=""),
		[]byte(""[""),
		[]byte(""]""),
		[]byte(""*""),
		[]byte(""^""),
		[]byte(""*=""),
		[]byte(""^=""),
		[]byte(""<-""),
		[]byte("">""),
		[]byte("">=""),
		[]byte(""{""),
		[]byte(""}""),
		[]byte(""/""),
		[]byte(""<<""),
		[]byte(""/=""),
		[]byte(""<<=""),
		[]byte(""++""),
		[]byte(""=""),
		[]byte("":=""),
		[]byte("",""),
		[]byte("";""),
		[]byte(""%""),
		[]byte("">>""),
		[]byte(""%=""),
		[]byte("">>=""),
		[]byte(""--""),
		[]byte(""!""),
		[]byte(""...""),
		[]byte("".""),
		[]byte("":""),
		[]byte(""&^""),
		[]byte(""&^=""),
		[]byte(""~""),
		[]byte(""_""),
	)

	GolangBasicType = New(
		""bool"",
		""string"",
		""byte"",
		""rune"",
		""int"",
		""uint"",
		""int8"",
		""uint8"",
		""int16"",
		""uint16"",
		""int32"",
		""uint32"",
		""int64"",
		""uint64"",
		""uintptr"",
		""float32"",
		""float64"",
		""complex64"",
		""complex128"",
	)
)
".
Proof. vm_compute. reflexivity. Qed.

(** /repo/exported/enum/number.go *)
Definition repo_exported_enum_number : list item := [(DOther $"package" (shown $" enum"), 1);
  (DType $"Number" [] false (TWord $"int") PNil None, 0)].
Example C75_repo_exported_enum_number_ok : file_ok repo_exported_enum_number.
Proof. apply (forallb_ok (fun i => decl_okb (fst i))); [intros [d k]; apply decl_okb_ok|]. vm_compute. reflexivity. Qed.
Example C75_repo_exported_enum_number_text : file_text repo_exported_enum_number = $"package enum

type Number int
".
Proof. vm_compute. reflexivity. Qed.

(** /repo/extractor.go *)
Definition repo_extractor : list item := [(DOther $"package" (shown $" goast"), 1);
  (DOther $"import" (shown $" (
	""strings""

	""github.com/yanun0323/goast/charset""
	""github.com/yanun0323/goast/helper""
	""github.com/yanun0323/goast/kind""
)"), 1);
  (DLineComment $" extract parses file text content into nodes.", 0);
  (DFunc None $"extract" [] (Flat (PCons (Some $"text") (TSlice (TWord $"byte")) PNil)) (RMany (Flat (PCons None (TWord $"*Node") (PCons None (TWord $"error") PNil)))) (Some (shown $"
	var (
		i, line int
		buf     strings.Builder
	)
	node, err := _commonExtractor.Run(text, &buf, &i, &line)
	if err != nil {
		return nil, err
	}

	return node, nil
")) None, 1);
  (DOther $"var" (shown $" (
	_commonExtractor = &extractor{
		SeparatorCharset:  charset.SeparatorCharset,
		ReturnKeyword:     """",
		SkipReturnKeyword: """",
	}

	_parenthesisExtractor = &extractor{
		kind:              kind.Raw,
		SeparatorCharset:  charset.SeparatorCharset,
		ReturnKeyword:     "")"",
		SkipReturnKeyword: """",
	}

	_curlyBracketExtractor = &extractor{
		kind:              kind.Raw,
		SeparatorCharset:  charset.SeparatorCharset,
		ReturnKeyword:     ""}"",
		SkipReturnKeyword: """",
	}

	_commentExtractor = &extractor{
		kind:              kind.Comment,
		IncludeOpen:       true,
		SeparatorCharset:  nil,
		ReturnKeyword:     ""\n"",
		SkipReturnKeyword: """",
	}

	_innerCommentExtractor = &extractor{
		kind:              kind.Comment,
		IncludeOpen:       true,
		IncludeClose:      true,
		SeparatorCharset:  nil,
		ReturnKeyword:     ""*/"",
		SkipReturnKeyword: """",
	}

	_stringExtractor = &extractor{
		kind:              kind.String,
		IncludeOpen:       true,
		IncludeClose:      true,
		SeparatorCharset:  nil,
		ReturnKeyword:     ""\"""",
		SkipReturnKeyword: ""\\\"""",
	}

	_multilineStringExtractor = &extractor{
		kind:              kind.String,
		IncludeOpen:       true,
		IncludeClose:      true,
		SeparatorCharset:  nil,
		ReturnKeyword:     ""`"",
		SkipReturnKeyword: """",
	}

	_deeperExtractTable = map[*extractor]deeperExtract{
		_commonExtractor:       _commonDeeperExtract,
		_parenthesisExtractor:  _commonDeeperExtract,
		_curlyBracketExtractor: _commonDeeperExtract,
	}
	_commonDeeperExtract = deeperExtract{
		""("":  _parenthesisExtractor,
		""{"":  _curlyBracketExtractor,
		""//"": _commentExtractor,
		""/*"": _innerCommentExtractor,
		""\"""": _stringExtractor,
		""`"":  _multilineStringExtractor,
	}
)"), 1);
  (DType $"deeperExtract" [] false (TMap $"map" (TWord $"string") (TWord $"*extractor")) PNil None, 1);
  (DFunc (Some ((Some $"de"), (TWord $"deeperExtract"))) $"PrefixFit" [] (Flat (PCons (Some $"s") (TSlice (TWord $"byte")) PNil)) (RMany (Flat (PCons None (TWord $"*extractor") (PCons None (TWord $"bool") PNil)))) (Some (shown $"
	if de == nil {
		return nil, false
	}

	for k, v := range de {
		if helper.HasPrefix(s, k) {
			return v, true
		}
	}
	return nil, false
")) None, 1);
  (DStruct $"extractor" [] [FieldRow $"kind" [] 13 (TWord $"kind.Kind") PNil None None; FieldRow $"IncludeOpen" [] 6 (TWord $"bool") PNil None None; FieldRow $"IncludeClose" [] 5 (TWord $"bool") PNil None None; FieldRow $"SeparatorCharset" [] 1 (TGeneric $"charset.Set" (PCons None (TWord $"byte") PNil)) PNil None None; FieldRow $"ReturnKeyword" [] 4 (TWord $"string") PNil None None; FieldRow $"SkipReturnKeyword" [] 0 (TWord $"string") PNil None None] None, 1);
  (DFunc (Some ((Some $"e"), (TWord $"*extractor"))) $"Run" [] (Flat (PCons (Some $"text") (TSlice (TWord $"byte")) (PCons (Some $"buf") (TWord $"*strings.Builder") (PCons (Some $"i") (TWord $"*int") (PCons (Some $"line") (TWord $"*int") PNil))))) (RMany (Flat (PCons None (TWord $"*Node") (PCons None (TWord $"error") PNil)))) (Some (shown $"
	if e == nil {
		return nil, nil
	}

	var (
		char      byte
		head, cur *Node
	)

	bufLine := *line

	insertNode := func(n *Node) {
		if n == nil {
			return
		}

		if head == nil {
			head = n
		}

		if cur != nil {
			cur.ReplaceNext(n)
		} else {
			cur = n
		}

		cur = n.IterNext(func(n *Node) bool {
			return n.Next() != nil
		})
	}

	pushNode := func(useLine bool, kind ...kind.Kind) {
		if buf.Len() == 0 {
			return
		}
		if useLine {
			insertNode(NewNode(*line, buf.String(), kind...))
		} else {
			insertNode(NewNode(bufLine, buf.String(), kind...))
		}
		buf.Reset()
		bufLine = *line
	}

	lineStep := func() {
		if text[*i] == '\n' {
			*line++
		}
	}

	for ; *i < len(text); *i++ {
		char = text[*i]

		if ee, ok := e.DeeperExtract().PrefixFit(text[*i:]); ok {
			// () {} /**/ """" `` //\n
			pushNode(true)
			if ee != nil && ee.IncludeOpen { // /* // "" `
				buf.WriteByte(char)
			} else { // ( {
				insertNode(NewNode(bufLine, string(char)))
			}
			*i++
			ns, err := ee.Run(text, buf, i, line)
			if err != nil {
				return nil, err
			}
			insertNode(ns)
			continue
		}

		trailing := text[:*i+1]
		if len(e.SkipReturnKeyword) != 0 && helper.HasSuffix(trailing, e.SkipReturnKeyword) {
			// skip return
			buf.WriteByte(char)
			lineStep()
			continue
		}

		if len(e.ReturnKeyword) != 0 && helper.HasSuffix(trailing, e.ReturnKeyword) {
			// inside ) } */ "" ` \n
			if e.IncludeClose { // */ "" `
				buf.WriteByte(char)
				pushNode(false, e.Kind()...)
			} else {
				pushNode(true, e.Kind()...)
				insertNode(NewNode(*line, string(char)))
			}
			lineStep()
			return head, nil
		}

		if e.SeparatorCharset.Contain(char) {
			// ' '
			pushNode(true)
			insertNode(NewNode(*line, string(char)))
		} else {
			buf.WriteByte(char)
		}

		lineStep()
	}
	pushNode(true)
	return head, nil
")) None, 1);
  (DFunc (Some ((Some $"e"), (TWord $"*extractor"))) $"Kind" [] (Flat PNil) (ROne (TSlice (TWord $"kind.Kind"))) (Some (shown $"
	if e == nil || e.kind == kind.Raw {
		return nil
	}

	return []kind.Kind{e.kind}
")) None, 1);
  (DFunc (Some ((Some $"e"), (TWord $"*extractor"))) $"DeeperExtract" [] (Flat PNil) (ROne (TWord $"deeperExtract")) (Some (shown $"
	return _deeperExtractTable[e]
")) None, 0)].
Example C75_repo_extractor_ok : file_ok repo_extractor.
Proof. apply (forallb_ok (fun i => decl_okb (fst i))); [intros [d k]; apply decl_okb_ok|]. vm_compute. reflexivity. Qed.
Example C75_repo_extractor_text : file_text repo_extractor = $"package goast

import (
	""strings""

	""github.com/yanun0323/goast/charset""
	""github.com/yanun0323/goast/helper""
	""github.com/yanun0323/goast/kind""
)

// extract parses file text content into nodes.
func extract(text []byte) (*Node, error) {
	var (
		i, line int
		buf     strings.Builder
	)
	node, err := _commonExtractor.Run(text, &buf, &i, &line)
	if err != nil {
		return nil, err
	}

	return node, nil
}

var (
	_commonExtractor = &extractor{
		SeparatorCharset:  charset.SeparatorCharset,
		ReturnKeyword:     """",
		SkipReturnKeyword: """",
	}

	_parenthesisExtractor = &extractor{
		kind:              kind.Raw,
		SeparatorCharset:  charset.SeparatorCharset,
		ReturnKeyword:     "")"",
		SkipReturnKeyword: """",
	}

	_curlyBracketExtractor = &extractor{
		kind:              kind.Raw,
		SeparatorCharset:  charset.SeparatorCharset,
		ReturnKeyword:     ""}"",
		SkipReturnKeyword: """",
	}

	_commentExtractor = &extractor{
		kind:              kind.Comment,
		IncludeOpen:       true,
		SeparatorCharset:  nil,
		ReturnKeyword:     ""\n"",
		SkipReturnKeyword: """",
	}

	_innerCommentExtractor = &extractor{
		kind:              kind.Comment,
		IncludeOpen:       true,
		IncludeClose:      true,
		SeparatorCharset:  nil,
		ReturnKeyword:     ""*/"",
		SkipReturnKeyword: """",
	}

	_stringExtractor = &extractor{
		kind:              kind.String,
		IncludeOpen:       true,
		IncludeClose:      true,
		SeparatorCharset:  nil,
		ReturnKeyword:     ""\"""",
		SkipReturnKeyword: ""\\\"""",
	}

	_multilineStringExtractor = &extractor{
		kind:              kind.String,
		IncludeOpen:       true,
		IncludeClose:      true,
		SeparatorCharset:  nil,
		ReturnKeyword:     ""`"",
		SkipReturnKeyword: """",
	}

	_deeperExtractTable = map[*extractor]deeperExtract{
		_commonExtractor:       _commonDeeperExtract,
		_parenthesisExtractor:  _commonDeeperExtract,
		_curlyBracketExtractor: _commonDeeperExtract,
	}
	_commonDeeperExtract = deeperExtract{
		""("":  _parenthesisExtractor,
		""{"":  _curlyBracketExtractor,
		""//"": _commentExtractor,
		""/*"": _innerCommentExtractor,
		""\"""": _stringExtractor,
		""`"":  _multilineStringExtractor,
	}
)

type deeperExtract map[string]*extractor

func (de deeperExtract) PrefixFit(s []byte) (*extractor, bool) {
	if de == nil {
		return nil, false
	}

	for k, v := range de {
		if helper.HasPrefix(s, k) {
			return v, true
		}
	}
	return nil, false
}

type extractor struct {
	kind              kind.Kind
	IncludeOpen       bool
	IncludeClose      bool
	SeparatorCharset  charset.Set[byte]
	ReturnKeyword     string
	SkipReturnKeyword string
}

func (e *extractor) Run(text []byte, buf *strings.Builder, i *int, line *int) (*Node, error) {
	if e == nil {
		return nil, nil
	}

	var (
		char      byte
		head, cur *Node
	)

	bufLine := *line

	insertNode := func(n *Node) {
		if n == nil {
			return
		}

		if head == nil {
			head = n
		}

		if cur != nil {
			cur.ReplaceNext(n)
		} else {
			cur = n
		}

		cur = n.IterNext(func(n *Node) bool {
			return n.Next() != nil
		})
	}

	pushNode := func(useLine bool, kind ...kind.Kind) {
		if buf.Len() == 0 {
			return
		}
		if useLine {
			insertNode(NewNode(*line, buf.String(), kind...))
		} else {
			insertNode(NewNode(bufLine, buf.String(), kind...))
		}
		buf.Reset()
		bufLine = *line
	}

	lineStep := func() {
		if text[*i] == '\n' {
			*line++
		}
	}

	for ; *i < len(text); *i++ {
		char = text[*i]

		if ee, ok := e.DeeperExtract().PrefixFit(text[*i:]); ok {
			// () {} /**/ """" `` //\n
			pushNode(true)
			if ee != nil && ee.IncludeOpen { // /* // "" `
				buf.WriteByte(char)
			} else { // ( {
				insertNode(NewNode(bufLine, string(char)))
			}
			*i++
			ns, err := ee.Run(text, buf, i, line)
			if err != nil {
				return nil, err
			}
			insertNode(ns)
			continue
		}

		trailing := text[:*i+1]
		if len(e.SkipReturnKeyword) != 0 && helper.HasSuffix(trailing, e.SkipReturnKeyword) {
			// skip return
			buf.WriteByte(char)
			lineStep()
			continue
		}

		if len(e.ReturnKeyword) != 0 && helper.HasSuffix(trailing, e.ReturnKeyword) {
			// inside ) } */ "" ` \n
			if e.IncludeClose { // */ "" `
				buf.WriteByte(char)
				pushNode(false, e.Kind()...)
			} else {
				pushNode(true, e.Kind()...)
				insertNode(NewNode(*line, string(char)))
			}
			lineStep()
			return head, nil
		}

		if e.SeparatorCharset.Contain(char) {
			// ' '
			pushNode(true)
			insertNode(NewNode(*line, string(char)))
		} else {
			buf.WriteByte(char)
		}

		lineStep()
	}
	pushNode(true)
	return head, nil
}

func (e *extractor) Kind() []kind.Kind {
	if e == nil || e.kind == kind.Raw {
		return nil
	}

	return []kind.Kind{e.kind}
}

func (e *extractor) DeeperExtract() deeperExtract {
	return _deeperExtractTable[e]
}
".
Proof. vm_compute. reflexivity. Qed.

(** /repo/helper/helper.go *)
Definition repo_helper_helper : list item := [(DOther $"package" (shown $" helper"), 1);
  (DOther $"import" (shown $" (
	""errors""
	""fmt""
	""go/format""
	""io""
	""log/slog""
	""os""
	""path/filepath""
	""runtime/debug""
	""strings""

	""golang.org/x/tools/imports""
)"), 1);
  (DOther $"var" (shown $" (
	_debug bool
)"), 1);
  (DFunc None $"SetDebug" [] (Flat (PCons (Some $"debug") (TWord $"bool") PNil)) RNone (Some (shown $"
	_debug = debug
")) None, 1);
  (DFunc None $"DebugPrint" [] (Flat (PCons (Some $"args") (TWord $"...any") PNil)) RNone (Some (shown $"
	if _debug {
		ss := strings.Split(string(debug.Stack()), ""\n"")
		s := """"
		if len(ss) >= 7 {
			s = ss[6]
		}
		args = append(args, ""\t"", strings.Split(s, "" "")[0])
		fmt.Println(args...)
	}
")) None, 1);
  (DFunc None $"ReadFile" [] (Flat (PCons (Some $"file") (TWord $"string") PNil)) (RMany (Flat (PCons None (TSlice (TWord $"byte")) (PCons None (TWord $"error") PNil)))) (Some (shown $"
	if !HasSuffix([]byte(file), "".go"") {
		file = file + "".go""
	}

	f, err := os.Open(file)
	if err != nil {
		return nil, err
	}
	defer f.Close()

	buf, err := io.ReadAll(f)
	if err != nil {
		return nil, err
	}

	formatted, err := format.Source(buf)
	if err != nil {
		return nil, err
	}

	return formatted, nil
")) None, 1);
  (DFunc None $"SaveFile" [] (Flat (PCons (Some $"file") (TWord $"string") (PCons (Some $"data") (TSlice (TWord $"byte")) (PCons (Some $"autoImport") (TWord $"...bool") PNil)))) (ROne (TWord $"error")) (Some (shown $"
	if len(data) == 0 {
		return errors.New(""save empty data"")
	}

	if !HasSuffix([]byte(file), "".go"") {
		file = file + "".go""
	}

	var (
		formatted []byte
		err       error
	)

	if len(autoImport) != 0 && autoImport[0] {
		formatted, err = imports.Process(file, data, nil)
		if err != nil {
			slog.Error(fmt.Sprintf(""imports ast data, err: %+v"", err))
			formatted = data
		}
	} else {
		formatted, err = format.Source(data)
		if err != nil {
			slog.Error(fmt.Sprintf(""format ast data, err: %+v"", err))
			formatted = data
		}
	}

	dir := filepath.Dir(file)
	if err := os.MkdirAll(dir, 0777); err != nil {
		return fmt.Errorf(""mkdir %s, err: %w"", dir, err)
	}

	f, err := os.Create(file)
	if err != nil {
		return fmt.Errorf(""create file %s, err: %w"", file, err)
	}
	defer f.Close()

	if _, err := f.Write(formatted); err != nil {
		return fmt.Errorf(""write file %s, err: %w"", file, err)
	}

	return nil
")) None, 1);
  (DFunc None $"HasPrefix" [] (Flat (PCons (Some $"s") (TSlice (TWord $"byte")) (PCons (Some $"prefix") (TWord $"string") PNil))) (ROne (TWord $"bool")) (Some (shown $"
	if len(prefix) > len(s) {
		return false
	}

	for i := range prefix {
		if s[i] != prefix[i] {
			return false
		}
	}

	return true
")) None, 1);
  (DFunc None $"HasSuffix" [] (Flat (PCons (Some $"s") (TSlice (TWord $"byte")) (PCons (Some $"suffix") (TWord $"string") PNil))) (ROne (TWord $"bool")) (Some (shown $"
	if len(suffix) > len(s) {
		return false
	}
	ss := s[len(s)-len(suffix):]
	for i := range ss {
		if ss[i] != suffix[i] {
			return false
		}
	}

	return true
")) None, 1);
  (DFunc None $"TidyText" [] (Flat (PCons (Some $"s") (TWord $"string") PNil)) (ROne (TWord $"string")) (Some (shown $"
	s = strings.ReplaceAll(s, ""\n"", ""\\n"")
	s = strings.ReplaceAll(s, ""\r"", ""·"")
	s = strings.ReplaceAll(s, "" "", ""·"")
	s = strings.ReplaceAll(s, ""\t"", "" -> "")
	return s
")) None, 1);
  (DFunc None $"AppendUnrepeatable" (map fst (shown $"Type comparable")) (Flat (PCons (Some $"slice") (TSlice (TWord $"Type")) (PCons (Some $"elems") (TWord $"...Type") PNil))) (ROne (TSlice (TWord $"Type"))) (Some (shown $"
	if len(elems) == 0 {
		return slice
	}

	if len(slice) == 0 {
		return elems
	}

	if slice[len(slice)-1] == elems[0] {
		elems = elems[1:]
	}

	return append(slice, elems...)
")) None, 0)].
Example C75_repo_helper_helper_ok : file_ok repo_helper_helper.
Proof. apply (forallb_ok (fun i => decl_okb (fst i))); [intros [d k]; apply decl_okb_ok|]. vm_compute. reflexivity. Qed.
Example C75_repo_helper_helper_text : file_text repo_helper_helper = $"package helper

import (
	""errors""
	""fmt""
	""go/format""
	""io""
	""log/slog""
	""os""
	""path/filepath""
	""runtime/debug""
	""strings""

	""golang.org/x/tools/imports""
)

var (
	_debug bool
)

func SetDebug(debug bool) {
	_debug = debug
}

func DebugPrint(args ...any) {
	if _debug {
		ss := strings.Split(string(debug.Stack()), ""\n"")
		s := """"
		if len(ss) >= 7 {
			s = ss[6]
		}
		args = append(args, ""\t"", strings.Split(s, "" "")[0])
		fmt.Println(args...)
	}
}

func ReadFile(file string) ([]byte, error) {
	if !HasSuffix([]byte(file), "".go"") {
		file = file + "".go""
	}

	f, err := os.Open(file)
	if err != nil {
		return nil, err
	}
	defer f.Close()

	buf, err := io.ReadAll(f)
	if err != nil {
		return nil, err
	}

	formatted, err := format.Source(buf)
	if err != nil {
		return nil, err
	}

	return formatted, nil
}

func SaveFile(file string, data []byte, autoImport ...bool) error {
	if len(data) == 0 {
		return errors.New(""save empty data"")
	}

	if !HasSuffix([]byte(file), "".go"") {
		file = file + "".go""
	}

	var (
		formatted []byte
		err       error
	)

	if len(autoImport) != 0 && autoImport[0] {
		formatted, err = imports.Process(file, data, nil)
		if err != nil {
			slog.Error(fmt.Sprintf(""imports ast data, err: %+v"", err))
			formatted = data
		}
	} else {
		formatted, err = format.Source(data)
		if err != nil {
			slog.Error(fmt.Sprintf(""format ast data, err: %+v"", err))
			formatted = data
		}
	}

	dir := filepath.Dir(file)
	if err := os.MkdirAll(dir, 0777); err != nil {
		return fmt.Errorf(""mkdir %s, err: %w"", dir, err)
	}

	f, err := os.Create(file)
	if err != nil {
		return fmt.Errorf(""create file %s, err: %w"", file, err)
	}
	defer f.Close()

	if _, err := f.Write(formatted); err != nil {
		return fmt.Errorf(""write file %s, err: %w"", file, err)
	}

	return nil
}

func HasPrefix(s []byte, prefix string) bool {
	if len(prefix) > len(s) {
		return false
	}

	for i := range prefix {
		if s[i] != prefix[i] {
			return false
		}
	}

	return true
}

func HasSuffix(s []byte, suffix string) bool {
	if len(suffix) > len(s) {
		return false
	}
	ss := s[len(s)-len(suffix):]
	for i := range ss {
		if ss[i] != suffix[i] {
			return false
		}
	}

	return true
}

func TidyText(s string) string {
	s = strings.ReplaceAll(s, ""\n"", ""\\n"")
	s = strings.ReplaceAll(s, ""\r"", ""·"")
	s = strings.ReplaceAll(s, "" "", ""·"")
	s = strings.ReplaceAll(s, ""\t"", "" -> "")
	return s
}

func AppendUnrepeatable[Type comparable](slice []Type, elems ...Type) []Type {
	if len(elems) == 0 {
		return slice
	}

	if len(slice) == 0 {
		return elems
	}

	if slice[len(slice)-1] == elems[0] {
		elems = elems[1:]
	}

	return append(slice, elems...)
}
".
Proof. vm_compute. reflexivity. Qed.

(** /repo/kind/kind.go *)
Definition repo_kind_kind : list item := [(DOther $"package" (shown $" kind"), 1);
  (DOther $"import" (shown $" (
	""github.com/yanun0323/goast/charset""
	""github.com/yanun0323/goast/helper""
)"), 1);
  (DType $"Kind" [] false (TArray $"2" (TWord $"string")) PNil None, 1);
  (DOther $"var" (shown $" (
	None      Kind
	Raw       = Kind{"""", ""Raw""}
	Comment   = Kind{"""", ""Comment""}
	Number    = Kind{"""", ""Number""}
	Symbol    = Kind{"""", ""Symbol""}
	Basic     = Kind{"""", ""BasicType""}
	Separator = Kind{"""", ""Separator""}
	Keyword   = Kind{"""", ""Keyword""}

	/* separator */
	Tab                = Kind{""\t"", ""Tab""}
	Space              = Kind{"" "", ""Space""}
	Comma              = Kind{"","", ""Comma""}
	Colon              = Kind{"":"", ""Colon""}
	NewLine            = Kind{""\n"", ""NewLine""}
	Semicolon          = Kind{"";"", ""Semicolon""}
	ParenthesisLeft    = Kind{""("", ""ParenthesisLeft""}
	ParenthesisRight   = Kind{"")"", ""ParenthesisRight""}
	CurlyBracketLeft   = Kind{""{"", ""CurlyBracketLeft""}
	CurlyBracketRight  = Kind{""}"", ""CurlyBracketRight""}
	SquareBracketLeft  = Kind{""["", ""SquareBracketLeft""}
	SquareBracketRight = Kind{""]"", ""SquareBracketRight""}

	/* symbol */
	Pointer = Kind{""*"", ""Pointer""}
	Address = Kind{""&"", ""Address""}

	/* keyword */
	Import    = Kind{""import"", ""Import""}
	Var       = Kind{""var"", ""Var""}
	Const     = Kind{""const"", ""Const""}
	Map       = Kind{""map"", ""Map""}
	Channel   = Kind{""chan"", ""Channel""}
	Func      = Kind{""func"", ""Func""}
	Type      = Kind{""type"", ""Type""}
	Struct    = Kind{""struct"", ""Struct""}
	Interface = Kind{""interface"", ""Interface""}
	Package   = Kind{""package"", ""Package""}

	/* resetter set */
	FuncName           = Kind{"""", ""FuncName""}
	TypeName           = Kind{"""", ""TypeName""}
	TypeAliasType      = Kind{"""", ""TypeAliasType""}
	ParamName          = Kind{"""", ""ParamName""}
	ParamType          = Kind{"""", ""ParamType""}
	MethodReceiverName = Kind{"""", ""MethodReceiverName""}
	MethodReceiverType = Kind{"""", ""MethodReceiverType""}
	String             = Kind{"""", ""String""}
	Method             = Kind{"""", ""Method""}
)"), 1);
  (DFunc (Some ((Some $"k"), (TWord $"*Kind"))) $"PointerString" [] (Flat PNil) (ROne (TWord $"string")) (Some (shown $"
	if k == nil {
		return """"
	}

	return string(k[1])
")) None, 1);
  (DFunc (Some ((Some $"k"), (TWord $"Kind"))) $"String" [] (Flat PNil) (ROne (TWord $"string")) (Some (shown $"
	return string(k[1])
")) None, 1);
  (DFunc (Some ((Some $"k"), (TWord $"Kind"))) $"GetClose" [] (Flat PNil) (RMany (Flat (PCons None (TWord $"Kind") (PCons None (TWord $"bool") PNil)))) (Some (shown $"
	switch k {
	case ParenthesisLeft:
		return ParenthesisRight, true
	case CurlyBracketLeft:
		return CurlyBracketRight, true
	case SquareBracketLeft:
		return SquareBracketRight, true
	case ParenthesisRight:
		return ParenthesisLeft, true
	case CurlyBracketRight:
		return CurlyBracketLeft, true
	case SquareBracketRight:
		return SquareBracketLeft, true
	default:
		return None, false
	}
")) None, 1);
  (DFunc None $"New" [] (Flat (PCons (Some $"s") (TWord $"string") PNil)) (ROne (TWord $"Kind")) (Some (shown $"
	if len(s) == 0 {
		return None
	}

	switch s {
	case Tab[0]:
		return Tab
	case Space[0]:
		return Space
	case Comma[0]:
		return Comma
	case Colon[0]:
		return Colon
	case NewLine[0]:
		return NewLine
	case Semicolon[0]:
		return Semicolon
	case ParenthesisLeft[0]:
		return ParenthesisLeft
	case ParenthesisRight[0]:
		return ParenthesisRight
	case CurlyBracketLeft[0]:
		return CurlyBracketLeft
	case CurlyBracketRight[0]:
		return CurlyBracketRight
	case SquareBracketLeft[0]:
		return SquareBracketLeft
	case SquareBracketRight[0]:
		return SquareBracketRight
	case Import[0]:
		return Import
	case Var[0]:
		return Var
	case Const[0]:
		return Const
	case Map[0]:
		return Map
	case Channel[0]:
		return Channel
	case Func[0]:
		return Func
	case Type[0]:
		return Type
	case Struct[0]:
		return Struct
	case Interface[0]:
		return Interface
	case Package[0]:
		return Package
	}

	if len(s) != 0 {
		isNumber := true
		for i := range s {
			isNumber = isNumber && charset.NumberCharset.Contain(s[i])
			if !isNumber {
				break
			}
		}
		if isNumber {
			return Number
		}
	}

	if len(s) == 1 && charset.SeparatorCharset.Contain(s[0]) {
		return Separator
	}

	if buf := []byte(s); helper.HasPrefix(buf, ""\"""") || helper.HasPrefix(buf, ""`"") {
		return String
	}

	if charset.GolangKeywords.Contain(s) {
		return Keyword
	}

	if charset.GolangBasicType.Contain(s) {
		return Basic
	}

	if len(s) != 0 {
		isSymbol := true
		for i := range s {
			isSymbol = isSymbol && charset.GolangSymbol.Contain(s[i])
			if !isSymbol {
				break
			}
		}
		if isSymbol {
			return Symbol
		}
	}

	return Raw
")) None, 0)].
Example C75_repo_kind_kind_ok : file_ok repo_kind_kind.
Proof. apply (forallb_ok (fun i => decl_okb (fst i))); [intros [d k]; apply decl_okb_ok|]. vm_compute. reflexivity. Qed.
Example C75_repo_kind_kind_text : file_text repo_kind_kind = $"package kind

import (
	""github.com/yanun0323/goast/charset""
	""github.com/yanun0323/goast/helper""
)

type Kind [2]string

var (
	None      Kind
	Raw       = Kind{"""", ""Raw""}
	Comment   = Kind{"""", ""Comment""}
	Number    = Kind{"""", ""Number""}
	Symbol    = Kind{"""", ""Symbol""}
	Basic     = Kind{"""", ""BasicType""}
	Separator = Kind{"""", ""Separator""}
	Keyword   = Kind{"""", ""Keyword""}

	/* separator */
	Tab                = Kind{""\t"", ""Tab""}
	Space              = Kind{"" "", ""Space""}
	Comma              = Kind{"","", ""Comma""}
	Colon              = Kind{"":"", ""Colon""}
	NewLine            = Kind{""\n"", ""NewLine""}
	Semicolon          = Kind{"";"", ""Semicolon""}
	ParenthesisLeft    = Kind{""("", ""ParenthesisLeft""}
	ParenthesisRight   = Kind{"")"", ""ParenthesisRight""}
	CurlyBracketLeft   = Kind{""{"", ""CurlyBracketLeft""}
	CurlyBracketRight  = Kind{""}"", ""CurlyBracketRight""}
	SquareBracketLeft  = Kind{""["", ""SquareBracketLeft""}
	SquareBracketRight = Kind{""]"", ""SquareBracketRight""}

	/* symbol */
	Pointer = Kind{""*"", ""Pointer""}
	Address = Kind{""&"", ""Address""}

	/* keyword */
	Import    = Kind{""import"", ""Import""}
	Var       = Kind{""var"", ""Var""}
	Const     = Kind{""const"", ""Const""}
	Map       = Kind{""map"", ""Map""}
	Channel   = Kind{""chan"", ""Channel""}
	Func      = Kind{""func"", ""Func""}
	Type      = Kind{""type"", ""Type""}
	Struct    = Kind{""struct"", ""Struct""}
	Interface = Kind{""interface"", ""Interface""}
	Package   = Kind{""package"", ""Package""}

	/* resetter set */
	FuncName           = Kind{"""", ""FuncName""}
	TypeName           = Kind{"""", ""TypeName""}
	TypeAliasType      = Kind{"""", ""TypeAliasType""}
	ParamName          = Kind{"""", ""ParamName""}
	ParamType          = Kind{"""", ""ParamType""}
	MethodReceiverName = Kind{"""", ""MethodReceiverName""}
	MethodReceiverType = Kind{"""", ""MethodReceiverType""}
	String             = Kind{"""", ""String""}
	Method             = Kind{"""", ""Method""}
)

func (k *Kind) PointerString() string {
	if k == nil {
		return """"
	}

	return string(k[1])
}

func (k Kind) String() string {
	return string(k[1])
}

func (k Kind) GetClose() (Kind, bool) {
	switch k {
	case ParenthesisLeft:
		return ParenthesisRight, true
	case CurlyBracketLeft:
		return CurlyBracketRight, true
	case SquareBracketLeft:
		return SquareBracketRight, true
	case ParenthesisRight:
		return ParenthesisLeft, true
	case CurlyBracketRight:
		return CurlyBracketLeft, true
	case SquareBracketRight:
		return SquareBracketLeft, true
	default:
		return None, false
	}
}

func New(s string) Kind {
	if len(s) == 0 {
		return None
	}

	switch s {
	case Tab[0]:
		return Tab
	case Space[0]:
		return Space
	case Comma[0]:
		return Comma
	case Colon[0]:
		return Colon
	case NewLine[0]:
		return NewLine
	case Semicolon[0]:
		return Semicolon
	case ParenthesisLeft[0]:
		return ParenthesisLeft
	case ParenthesisRight[0]:
		return ParenthesisRight
	case CurlyBracketLeft[0]:
		return CurlyBracketLeft
	case CurlyBracketRight[0]:
		return CurlyBracketRight
	case SquareBracketLeft[0]:
		return SquareBracketLeft
	case SquareBracketRight[0]:
		return SquareBracketRight
	case Import[0]:
		return Import
	case Var[0]:
		return Var
	case Const[0]:
		return Const
	case Map[0]:
		return Map
	case Channel[0]:
		return Channel
	case Func[0]:
		return Func
	case Type[0]:
		return Type
	case Struct[0]:
		return Struct
	case Interface[0]:
		return Interface
	case Package[0]:
		return Package
	}

	if len(s) != 0 {
		isNumber := true
		for i := range s {
			isNumber = isNumber && charset.NumberCharset.Contain(s[i])
			if !isNumber {
				break
			}
		}
		if isNumber {
			return Number
		}
	}

	if len(s) == 1 && charset.SeparatorCharset.Contain(s[0]) {
		return Separator
	}

	if buf := []byte(s); helper.HasPrefix(buf, ""\"""") || helper.HasPrefix(buf, ""`"") {
		return String
	}

	if charset.GolangKeywords.Contain(s) {
		return Keyword
	}

	if charset.GolangBasicType.Contain(s) {
		return Basic
	}

	if len(s) != 0 {
		isSymbol := true
		for i := range s {
			isSymbol = isSymbol && charset.GolangSymbol.Contain(s[i])
			if !isSymbol {
				break
			}
		}
		if isSymbol {
			return Symbol
		}
	}

	return Raw
}
".
Proof. vm_compute. reflexivity. Qed.

(** /repo/scope.go *)
Definition repo_scope : list item := [(DOther $"package" (shown $" goast"), 1);
  (DOther $"import" (shown $" (
	""fmt""

	""github.com/yanun0323/goast/kind""
	""github.com/yanun0323/goast/scope""
)"), 1);
  (DBlockComment $"/*
Scope means the first level declaration of a go file.

It could be a package/comment/import/var/const/type/func.
*/", 0);
  (DInterface $"Scope" [] [IComment $" Kind returns the kind of the scope."; IMethod $"Kind" (Flat PNil) (ROne (TWord $"scope.Kind")) None; IBlank; IComment $" Line returns the line number of the scope."; IMethod $"Line" (Flat PNil) (ROne (TWord $"int")) None; IBlank; IComment $" Description returns a description of the scope."; IMethod $"Description" (Flat PNil) (ROne (TWord $"string")) None; IBlank; IComment $" Print prints the description of the scope."; IMethod $"Print" (Flat PNil) RNone None; IBlank; IComment $" Node returns the root node of the scope."; IMethod $"Node" (Flat PNil) (ROne (TWord $"*Node")) None; IBlank; IComment $" GetTypeName returns the type name of the scope if the scope is a type."; IMethod $"GetTypeName" (Flat PNil) (RMany (Flat (PCons None (TWord $"string") (PCons None (TWord $"bool") PNil)))) None; IBlank; IComment $" GetStructName returns the struct name of the scope if the scope is a struct."; IMethod $"GetStructName" (Flat PNil) (RMany (Flat (PCons None (TWord $"string") (PCons None (TWord $"bool") PNil)))) None; IBlank; IComment $" GetInterfaceName returns the interface name of the scope if the scope is a interface."; IMethod $"GetInterfaceName" (Flat PNil) (RMany (Flat (PCons None (TWord $"string") (PCons None (TWord $"bool") PNil)))) None; IBlank; IComment $" GetFuncName returns the func name of the scope if the scope is a func."; IMethod $"GetFuncName" (Flat PNil) (RMany (Flat (PCons None (TWord $"string") (PCons None (TWord $"bool") PNil)))) None; IBlank; IComment $" GetMethodName returns the method name of the scope if the scope is a method."; IMethod $"GetMethodName" (Flat PNil) (RMany (Flat (PCons None (TWord $"string") (PCons None (TWord $"bool") PNil)))) None; IBlank; IComment $" GetMethodReceiver returns the method receiver of the scope if the scope is a method."; IMethod $"GetMethodReceiver" (Flat PNil) (RMany (Flat (PCons None (TWord $"string") (PCons None (TWord $"bool") PNil)))) None; IBlank; IComment $" Copy returns a copy of the scope."; IMethod $"Copy" (Flat PNil) (ROne (TWord $"Scope")) None] None, 1);
  (DLineComment $" NewScope creates a new Scope.", 0);
  (DFunc None $"NewScope" [] (Flat (PCons (Some $"line") (TWord $"int") (PCons (Some $"kind") (TWord $"scope.Kind") (PCons (Some $"node") (TWord $"*Node") PNil)))) (ROne (TWord $"Scope")) (Some (shown $"
	return &scopeStruct{
		line: line,
		kind: kind,
		node: node,
	}
")) None, 1);
  (DLineComment $" ParseScope parses the given text into scopes.", 0);
  (DFunc None $"ParseScope" [] (Flat (PCons (Some $"startLine") (TWord $"int") (PCons (Some $"text") (TSlice (TWord $"byte")) PNil))) (RMany (Flat (PCons None (TSlice (TWord $"Scope")) (PCons None (TWord $"error") PNil)))) (Some (shown $"
	node, err := extract(text)
	if err != nil {
		return nil, err
	}

	scs := []Scope{}
	nodesToResetKind := []*Node{}

	head := node
	k := scope.Unknown
	line := startLine - 1

	tryAppendScope := func() {
		if k != scope.Unknown {
			nodesToResetKind = append(nodesToResetKind, head)
			scs = append(scs, NewScope(
				head.Line(),
				k,
				head,
			))
		}

		if head.Prev() != nil {
			_ = head.RemovePrev()
		}
	}

	_ = node.IterNext(func(n *Node) bool {
		if n.Line() == line {
			return true
		}

		line = n.Line()
		nk := newScopeKind(n.Text())
		if nk == scope.Unknown {
			return true
		}

		tryAppendScope()

		head = n
		k = nk
		return true
	})

	tryAppendScope()

	for _, n := range nodesToResetKind {
		resetKind(n)
	}

	return scs, nil
")) None, 1);
  (DStruct $"scopeStruct" [] [FieldRow $"line" [] 0 (TWord $"int") PNil None None; FieldRow $"kind" [] 0 (TWord $"scope.Kind") PNil None None; FieldRow $"node" [] 0 (TWord $"*Node") PNil None None] None, 1);
  (DFunc (Some ((Some $"d"), (TWord $"*scopeStruct"))) $"Line" [] (Flat PNil) (ROne (TWord $"int")) (Some (shown $"
	if d == nil {
		return -1
	}

	return d.line + 1
")) None, 1);
  (DFunc (Some ((Some $"d"), (TWord $"*scopeStruct"))) $"Kind" [] (Flat PNil) (ROne (TWord $"scope.Kind")) (Some (shown $"
	if d == nil {
		return scope.Unknown
	}

	return d.kind
")) None, 1);
  (DFunc (Some ((Some $"d"), (TWord $"*scopeStruct"))) $"Node" [] (Flat PNil) (ROne (TWord $"*Node")) (Some (shown $"
	return d.node
")) None, 1);
  (DFunc (Some ((Some $"d"), (TWord $"*scopeStruct"))) $"Description" [] (Flat PNil) (ROne (TWord $"string")) (Some (shown $"
	if d == nil {
		return """"
	}

	return fmt.Sprintf(""%d .... *Scope.%s"", d.Line()+1, d.kind.String())
")) None, 1);
  (DFunc (Some ((Some $"d"), (TWord $"*scopeStruct"))) $"Print" [] (Flat PNil) RNone (Some (shown $"
	println(d.Description())
")) None, 1);
  (DFunc None $"newScopeKind" [] (Flat (PCons (Some $"s") (TWord $"string") PNil)) (ROne (TWord $"scope.Kind")) (Some (shown $"
	kinds := []scope.Kind{
		scope.Package,
		scope.Comment,
		scope.InnerComment,
		scope.Import,
		scope.Variable,
		scope.Const,
		scope.Type,
		scope.Func,
	}

	for _, kind := range kinds {
		if isScopeKind(s, kind) {
			return kind
		}
	}

	return scope.Unknown
")) None, 1);
  (DFunc None $"isScopeKind" [] (Flat (PCons (Some $"s") (TWord $"string") (PCons (Some $"k") (TWord $"scope.Kind") PNil))) (ROne (TWord $"bool")) (Some (shown $"
	ks := string(k)
	if len(s) < len(ks) {
		return false
	}

	return s[:len(ks)] == ks
")) None, 1);
  (DFunc (Some ((Some $"d"), (TWord $"*scopeStruct"))) $"GetFuncName" [] (Flat PNil) (RMany (Flat (PCons None (TWord $"string") (PCons None (TWord $"bool") PNil)))) (Some (shown $"
	if d.Kind() != scope.Func {
		return """", false
	}

	var (
		name  string
		found bool
	)

	d.Node().IterNext(func(n *Node) bool {
		if n.Kind() == kind.FuncName {
			name = n.Text()
			found = true
			return false
		}

		return true
	})

	return name, found
")) None, 1);
  (DFunc (Some ((Some $"d"), (TWord $"*scopeStruct"))) $"GetTypeName" [] (Flat PNil) (RMany (Flat (PCons None (TWord $"string") (PCons None (TWord $"bool") PNil)))) (Some (shown $"
	if d.Kind() != scope.Type {
		return """", false
	}

	var (
		name  string
		found bool
	)

	d.Node().IterNext(func(n *Node) bool {
		found = n.Kind() == kind.TypeName
		name = n.Text()
		return !found
	})

	return name, found
")) None, 1);
  (DFunc (Some ((Some $"d"), (TWord $"*scopeStruct"))) $"GetStructName" [] (Flat PNil) (RMany (Flat (PCons None (TWord $"string") (PCons None (TWord $"bool") PNil)))) (Some (shown $"
	if d.Kind() != scope.Type {
		return """", false
	}

	isStruct := false

	d.Node().IterNext(func(n *Node) bool {
		isStruct = n.Kind() == kind.Struct
		return !isStruct
	})

	typeName, _ := d.GetTypeName()

	return typeName, isStruct
")) None, 1);
  (DFunc (Some ((Some $"d"), (TWord $"*scopeStruct"))) $"GetInterfaceName" [] (Flat PNil) (RMany (Flat (PCons None (TWord $"string") (PCons None (TWord $"bool") PNil)))) (Some (shown $"
	if d.Kind() != scope.Type {
		return """", false
	}

	isInterface := false

	d.Node().IterNext(func(n *Node) bool {
		isInterface = n.Kind() == kind.Interface
		return !isInterface
	})

	typeName, _ := d.GetTypeName()

	return typeName, isInterface
")) None, 1);
  (DFunc (Some ((Some $"d"), (TWord $"*scopeStruct"))) $"GetMethodName" [] (Flat PNil) (RMany (Flat (PCons None (TWord $"string") (PCons None (TWord $"bool") PNil)))) (Some (shown $"
	if d.Kind() != scope.Func {
		return """", false
	}

	var (
		name  string
		found bool
	)

	if _, isMethod := d.GetMethodReceiver(); !isMethod {
		return """", false
	}

	d.Node().IterNext(func(n *Node) bool {
		found = n.Kind() == kind.FuncName
		name = n.Text()
		return !found
	})

	return name, found
")) None, 1);
  (DFunc (Some ((Some $"d"), (TWord $"*scopeStruct"))) $"GetMethodReceiver" [] (Flat PNil) (RMany (Flat (PCons None (TWord $"string") (PCons None (TWord $"bool") PNil)))) (Some (shown $"
	if d.Kind() != scope.Func {
		return """", false
	}

	var (
		name  string
		found bool
	)

	d.Node().IterNext(func(n *Node) bool {
		found = n.Kind() == kind.MethodReceiverType
		name = n.Text()
		return !found
	})

	return name, found
")) None, 1);
  (DFunc (Some ((Some $"d"), (TWord $"*scopeStruct"))) $"Copy" [] (Flat PNil) (ROne (TWord $"Scope")) (Some (shown $"
	return &scopeStruct{
		line: d.line,
		kind: d.kind,
		node: d.node.Copy(true),
	}
")) None, 0)].
Example C75_repo_scope_ok : file_ok repo_scope.
Proof. apply (forallb_ok (fun i => decl_okb (fst i))); [intros [d k]; apply decl_okb_ok|]. vm_compute. reflexivity. Qed.
Example C75_repo_scope_text : file_text repo_scope = $"package goast

import (
	""fmt""

	""github.com/yanun0323/goast/kind""
	""github.com/yanun0323/goast/scope""
)

/*
Scope means the first level declaration of a go file.

It could be a package/comment/import/var/const/type/func.
*/
type Scope interface {
	// Kind returns the kind of the scope.
	Kind() scope.Kind

	// Line returns the line number of the scope.
	Line() int

	// Description returns a description of the scope.
	Description() string

	// Print prints the description of the scope.
	Print()

	// Node returns the root node of the scope.
	Node() *Node

	// GetTypeName returns the type name of the scope if the scope is a type.
	GetTypeName() (string, bool)

	// GetStructName returns the struct name of the scope if the scope is a struct.
	GetStructName() (string, bool)

	// GetInterfaceName returns the interface name of the scope if the scope is a interface.
	GetInterfaceName() (string, bool)

	// GetFuncName returns the func name of the scope if the scope is a func.
	GetFuncName() (string, bool)

	// GetMethodName returns the method name of the scope if the scope is a method.
	GetMethodName() (string, bool)

	// GetMethodReceiver returns the method receiver of the scope if the scope is a method.
	GetMethodReceiver() (string, bool)

	// Copy returns a copy of the scope.
	Copy() Scope
}

// NewScope creates a new Scope.
func NewScope(line int, kind scope.Kind, node *Node) Scope {
	return &scopeStruct{
		line: line,
		kind: kind,
		node: node,
	}
}

// ParseScope parses the given text into scopes.
func ParseScope(startLine int, text []byte) ([]Scope, error) {
	node, err := extract(text)
	if err != nil {
		return nil, err
	}

	scs := []Scope{}
	nodesToResetKind := []*Node{}

	head := node
	k := scope.Unknown
	line := startLine - 1

	tryAppendScope := func() {
		if k != scope.Unknown {
			nodesToResetKind = append(nodesToResetKind, head)
			scs = append(scs, NewScope(
				head.Line(),
				k,
				head,
			))
		}

		if head.Prev() != nil {
			_ = head.RemovePrev()
		}
	}

	_ = node.IterNext(func(n *Node) bool {
		if n.Line() == line {
			return true
		}

		line = n.Line()
		nk := newScopeKind(n.Text())
		if nk == scope.Unknown {
			return true
		}

		tryAppendScope()

		head = n
		k = nk
		return true
	})

	tryAppendScope()

	for _, n := range nodesToResetKind {
		resetKind(n)
	}

	return scs, nil
}

type scopeStruct struct {
	line int
	kind scope.Kind
	node *Node
}

func (d *scopeStruct) Line() int {
	if d == nil {
		return -1
	}

	return d.line + 1
}

func (d *scopeStruct) Kind() scope.Kind {
	if d == nil {
		return scope.Unknown
	}

	return d.kind
}

func (d *scopeStruct) Node() *Node {
	return d.node
}

func (d *scopeStruct) Description() string {
	if d == nil {
		return """"
	}

	return fmt.Sprintf(""%d .... *Scope.%s"", d.Line()+1, d.kind.String())
}

func (d *scopeStruct) Print() {
	println(d.Description())
}

func newScopeKind(s string) scope.Kind {
	kinds := []scope.Kind{
		scope.Package,
		scope.Comment,
		scope.InnerComment,
		scope.Import,
		scope.Variable,
		scope.Const,
		scope.Type,
		scope.Func,
	}

	for _, kind := range kinds {
		if isScopeKind(s, kind) {
			return kind
		}
	}

	return scope.Unknown
}

func isScopeKind(s string, k scope.Kind) bool {
	ks := string(k)
	if len(s) < len(ks) {
		return false
	}

	return s[:len(ks)] == ks
}

func (d *scopeStruct) GetFuncName() (string, bool) {
	if d.Kind() != scope.Func {
		return """", false
	}

	var (
		name  string
		found bool
	)

	d.Node().IterNext(func(n *Node) bool {
		if n.Kind() == kind.FuncName {
			name = n.Text()
			found = true
			return false
		}

		return true
	})

	return name, found
}

func (d *scopeStruct) GetTypeName() (string, bool) {
	if d.Kind() != scope.Type {
		return """", false
	}

	var (
		name  string
		found bool
	)

	d.Node().IterNext(func(n *Node) bool {
		found = n.Kind() == kind.TypeName
		name = n.Text()
		return !found
	})

	return name, found
}

func (d *scopeStruct) GetStructName() (string, bool) {
	if d.Kind() != scope.Type {
		return """", false
	}

	isStruct := false

	d.Node().IterNext(func(n *Node) bool {
		isStruct = n.Kind() == kind.Struct
		return !isStruct
	})

	typeName, _ := d.GetTypeName()

	return typeName, isStruct
}

func (d *scopeStruct) GetInterfaceName() (string, bool) {
	if d.Kind() != scope.Type {
		return """", false
	}

	isInterface := false

	d.Node().IterNext(func(n *Node) bool {
		isInterface = n.Kind() == kind.Interface
		return !isInterface
	})

	typeName, _ := d.GetTypeName()

	return typeName, isInterface
}

func (d *scopeStruct) GetMethodName() (string, bool) {
	if d.Kind() != scope.Func {
		return """", false
	}

	var (
		name  string
		found bool
	)

	if _, isMethod := d.GetMethodReceiver(); !isMethod {
		return """", false
	}

	d.Node().IterNext(func(n *Node) bool {
		found = n.Kind() == kind.FuncName
		name = n.Text()
		return !found
	})

	return name, found
}

func (d *scopeStruct) GetMethodReceiver() (string, bool) {
	if d.Kind() != scope.Func {
		return """", false
	}

	var (
		name  string
		found bool
	)

	d.Node().IterNext(func(n *Node) bool {
		found = n.Kind() == kind.MethodReceiverType
		name = n.Text()
		return !found
	})

	return name, found
}

func (d *scopeStruct) Copy() Scope {
	return &scopeStruct{
		line: d.line,
		kind: d.kind,
		node: d.node.Copy(true),
	}
}
".
Proof. vm_compute. reflexivity. Qed.

(** /repo/scope/scope_kind.go *)
Definition repo_scope_scope_kind : list item := [(DOther $"package" (shown $" scope"), 1);
  (DOther $"import" (shown $" ""github.com/yanun0323/goast/kind"""), 1);
  (DLineComment $" Kind", 0);
  (DType $"Kind" [] false (TWord $"string") PNil None, 1);
  (DOther $"const" (shown $" (
	Unknown      Kind = """"
	Package      Kind = ""package"" // package
	Comment      Kind = ""//""      // comment
	InnerComment Kind = ""/*""      // inner comment
	Import       Kind = ""import""  // import
	Variable     Kind = ""var""     // var
	Const        Kind = ""const""   // const
	Type         Kind = ""type""    // type
	Func         Kind = ""func""    // func
)"), 1);
  (DFunc (Some ((Some $"k"), (TWord $"Kind"))) $"String" [] (Flat PNil) (ROne (TWord $"string")) (Some (shown $"
	switch k {
	case Unknown:
		return ""Unknown""
	case Package:
		return ""Package""
	case Comment:
		return ""Comment""
	case InnerComment:
		return ""InnerComment""
	case Import:
		return ""Import""
	case Variable:
		return ""Variable""
	case Const:
		return ""Const""
	case Type:
		return ""Type""
	case Func:
		return ""Func""
	default:
		return """"
	}
")) None, 1);
  (DFunc (Some ((Some $"k"), (TWord $"Kind"))) $"ToKind" [] (Flat PNil) (ROne (TWord $"kind.Kind")) (Some (shown $"
	switch k {
	case Unknown:
		return kind.Raw
	case Package:
		return kind.Package
	case Comment:
		return kind.Comment
	case InnerComment:
		return kind.Comment
	case Import:
		return kind.Import
	case Variable:
		return kind.Var
	case Const:
		return kind.Const
	case Type:
		return kind.Type
	case Func:
		return kind.Func
	default:
		return kind.None
	}
")) None, 0)].
Example C75_repo_scope_scope_kind_ok : file_ok repo_scope_scope_kind.
Proof. apply (forallb_ok (fun i => decl_okb (fst i))); [intros [d k]; apply decl_okb_ok|]. vm_compute. reflexivity. Qed.
Example C75_repo_scope_scope_kind_text : file_text repo_scope_scope_kind = $"package scope

import ""github.com/yanun0323/goast/kind""

// Kind
type Kind string

const (
	Unknown      Kind = """"
	Package      Kind = ""package"" // package
	Comment      Kind = ""//""      // comment
	InnerComment Kind = ""/*""      // inner comment
	Import       Kind = ""import""  // import
	Variable     Kind = ""var""     // var
	Const        Kind = ""const""   // const
	Type         Kind = ""type""    // type
	Func         Kind = ""func""    // func
)

func (k Kind) String() string {
	switch k {
	case Unknown:
		return ""Unknown""
	case Package:
		return ""Package""
	case Comment:
		return ""Comment""
	case InnerComment:
		return ""InnerComment""
	case Import:
		return ""Import""
	case Variable:
		return ""Variable""
	case Const:
		return ""Const""
	case Type:
		return ""Type""
	case Func:
		return ""Func""
	default:
		return """"
	}
}

func (k Kind) ToKind() kind.Kind {
	switch k {
	case Unknown:
		return kind.Raw
	case Package:
		return kind.Package
	case Comment:
		return kind.Comment
	case InnerComment:
		return kind.Comment
	case Import:
		return kind.Import
	case Variable:
		return kind.Var
	case Const:
		return kind.Const
	case Type:
		return kind.Type
	case Func:
		return kind.Func
	default:
		return kind.None
	}
}
".
Proof. vm_compute. reflexivity. Qed.

(** /repo/trie.go *)
Definition repo_trie : list item := [(DOther $"package" (shown $" goast"), 1);
  (DInterface $"trie" (map fst (shown $"T comparable")) [IMethod $"AddText" (Flat (PCons (Some $"s") (TWord $"string") (PCons (Some $"value") (TWord $"T") PNil))) (ROne (TGeneric $"*trie_" (PCons None (TWord $"T") PNil))) None; IMethod $"FindText" (Flat (PCons (Some $"s") (TWord $"string") PNil)) (RMany (Flat (PCons None (TWord $"T") (PCons None (TWord $"bool") PNil)))) None; IMethod $"FindTextReversely" (Flat (PCons (Some $"s") (TWord $"string") PNil)) (RMany (Flat (PCons None (TWord $"T") (PCons None (TWord $"bool") PNil)))) None; IMethod $"FindByte" (Flat (PCons (Some $"b") (TSlice (TWord $"byte")) PNil)) (RMany (Flat (PCons None (TWord $"T") (PCons None (TWord $"bool") PNil)))) None; IMethod $"FindByteReversely" (Flat (PCons (Some $"b") (TSlice (TWord $"byte")) PNil)) (RMany (Flat (PCons None (TWord $"T") (PCons None (TWord $"bool") PNil)))) None; IMethod $"Insert" (Flat (PCons (Some $"key") (TWord $"byte") (PCons (Some $"value") (TWord $"T") PNil))) (ROne (TGeneric $"*trie_" (PCons None (TWord $"T") PNil))) None; IMethod $"Next" (Flat (PCons (Some $"key") (TWord $"byte") PNil)) (RMany (Flat (PCons None (TGeneric $"*trie_" (PCons None (TWord $"T") PNil)) (PCons None (TWord $"bool") PNil)))) None; IMethod $"Value" (Flat PNil) (ROne (TWord $"T")) None] None, 1);
  (DStruct $"trie_" (map fst (shown $"T comparable")) [FieldRow $"value" [] 0 (TWord $"T") PNil None None; FieldRow $"next" [] 1 (TMap $"map" (TWord $"byte") (TGeneric $"*trie_" (PCons None (TWord $"T") PNil))) PNil None None] None, 1);
  (DFunc (Some ((Some $"t"), (TGeneric $"*trie_" (PCons None (TWord $"T") PNil)))) $"AddText" [] (Flat (PCons (Some $"s") (TWord $"string") (PCons (Some $"value") (TWord $"T") PNil))) (ROne (TGeneric $"*trie_" (PCons None (TWord $"T") PNil))) (Some (shown $"
	if t == nil {
		return nil
	}

	var zero T
	n := t
	for i := range s {
		n = n.Insert(s[i], zero)
	}
	n.value = value
	return n
")) None, 1);
  (DFunc (Some ((Some $"t"), (TGeneric $"*trie_" (PCons None (TWord $"T") PNil)))) $"Insert" [] (Flat (PCons (Some $"key") (TWord $"byte") (PCons (Some $"value") (TWord $"T") PNil))) (ROne (TGeneric $"*trie_" (PCons None (TWord $"T") PNil))) (Some (shown $"
	if t == nil {
		return nil
	}

	if t.next == nil {
		t.next = map[byte]*trie_[T]{}
	}

	if _, ok := t.next[key]; !ok {
		t.next[key] = &trie_[T]{}
	}

	t.next[key].value = value

	return t.next[key]
")) None, 1);
  (DFunc (Some ((Some $"t"), (TGeneric $"*trie_" (PCons None (TWord $"T") PNil)))) $"FindText" [] (Flat (PCons (Some $"s") (TWord $"string") PNil)) (RMany (Flat (PCons None (TWord $"T") (PCons None (TWord $"bool") PNil)))) (Some (shown $"
	if t == nil {
		return t.Value(), false
	}

	n := t
	ok := false
	for i := range s {
		n, ok = n.Next(s[i])
		if !ok {
			return n.Value(), false
		}
	}
	return n.Value(), true
")) None, 1);
  (DFunc (Some ((Some $"t"), (TGeneric $"*trie_" (PCons None (TWord $"T") PNil)))) $"FindTextReversely" [] (Flat (PCons (Some $"s") (TWord $"string") PNil)) (RMany (Flat (PCons None (TWord $"T") (PCons None (TWord $"bool") PNil)))) (Some (shown $"
	if t == nil {
		return t.Value(), false
	}

	n := t
	ok := false
	for i := len(s) - 1; i >= 0; i-- {
		n, ok = n.Next(s[i])
		if !ok {
			return n.Value(), false
		}
	}
	return n.Value(), true
")) None, 1);
  (DFunc (Some ((Some $"t"), (TGeneric $"*trie_" (PCons None (TWord $"T") PNil)))) $"FindByte" [] (Flat (PCons (Some $"b") (TSlice (TWord $"byte")) PNil)) (RMany (Flat (PCons None (TWord $"T") (PCons None (TWord $"bool") PNil)))) (Some (shown $"
	if t == nil {
		return t.Value(), false
	}

	n := t
	ok := false
	for i := range b {
		n, ok = n.Next(b[i])
		if !ok {
			return n.Value(), false
		}
	}

	return n.Value(), true
")) None, 1);
  (DFunc (Some ((Some $"t"), (TGeneric $"*trie_" (PCons None (TWord $"T") PNil)))) $"FindByteReversely" [] (Flat (PCons (Some $"b") (TSlice (TWord $"byte")) PNil)) (RMany (Flat (PCons None (TWord $"T") (PCons None (TWord $"bool") PNil)))) (Some (shown $"
	if t == nil {
		return t.Value(), false
	}

	n := t
	ok := false
	for i := len(b) - 1; i >= 0; i-- {
		n, ok = n.Next(b[i])
		if !ok {
			return n.Value(), false
		}
	}

	return n.Value(), true
")) None, 1);
  (DFunc (Some ((Some $"t"), (TGeneric $"*trie_" (PCons None (TWord $"T") PNil)))) $"Value" [] (Flat PNil) (ROne (TWord $"T")) (Some (shown $"
	if t == nil {
		var zero T
		return zero
	}
	return t.value
")) None, 1);
  (DFunc (Some ((Some $"t"), (TGeneric $"*trie_" (PCons None (TWord $"T") PNil)))) $"Next" [] (Flat (PCons (Some $"key") (TWord $"byte") PNil)) (RMany (Flat (PCons None (TGeneric $"*trie_" (PCons None (TWord $"T") PNil)) (PCons None (TWord $"bool") PNil)))) (Some (shown $"
	if t == nil || t.next == nil {
		return nil, false
	}

	n, ok := t.next[key]
	return n, ok
")) None, 1);
  (DFunc None $"newTrie" (map fst (shown $"T comparable")) (Flat (PCons (Some $"set") (TMap $"map" (TWord $"string") (TWord $"T")) PNil)) (ROne (TGeneric $"trie" (PCons None (TWord $"T") PNil))) (Some (shown $"
	root := &trie_[T]{}
	for k, v := range set {
		_ = root.AddText(k, v)
	}

	return root
")) None, 0)].
Example C75_repo_trie_ok : file_ok repo_trie.
Proof. apply (forallb_ok (fun i => decl_okb (fst i))); [intros [d k]; apply decl_okb_ok|]. vm_compute. reflexivity. Qed.
Example C75_repo_trie_text : file_text repo_trie = $"package goast

type trie[T comparable] interface {
	AddText(s string, value T) *trie_[T]
	FindText(s string) (T, bool)
	FindTextReversely(s string) (T, bool)
	FindByte(b []byte) (T, bool)
	FindByteReversely(b []byte) (T, bool)
	Insert(key byte, value T) *trie_[T]
	Next(key byte) (*trie_[T], bool)
	Value() T
}

type trie_[T comparable] struct {
	value T
	next  map[byte]*trie_[T]
}

func (t *trie_[T]) AddText(s string, value T) *trie_[T] {
	if t == nil {
		return nil
	}

	var zero T
	n := t
	for i := range s {
		n = n.Insert(s[i], zero)
	}
	n.value = value
	return n
}

func (t *trie_[T]) Insert(key byte, value T) *trie_[T] {
	if t == nil {
		return nil
	}

	if t.next == nil {
		t.next = map[byte]*trie_[T]{}
	}

	if _, ok := t.next[key]; !ok {
		t.next[key] = &trie_[T]{}
	}

	t.next[key].value = value

	return t.next[key]
}

func (t *trie_[T]) FindText(s string) (T, bool) {
	if t == nil {
		return t.Value(), false
	}

	n := t
	ok := false
	for i := range s {
		n, ok = n.Next(s[i])
		if !ok {
			return n.Value(), false
		}
	}
	return n.Value(), true
}

func (t *trie_[T]) FindTextReversely(s string) (T, bool) {
	if t == nil {
		return t.Value(), false
	}

	n := t
	ok := false
	for i := len(s) - 1; i >= 0; i-- {
		n, ok = n.Next(s[i])
		if !ok {
			return n.Value(), false
		}
	}
	return n.Value(), true
}

func (t *trie_[T]) FindByte(b []byte) (T, bool) {
	if t == nil {
		return t.Value(), false
	}

	n := t
	ok := false
	for i := range b {
		n, ok = n.Next(b[i])
		if !ok {
			return n.Value(), false
		}
	}

	return n.Value(), true
}

func (t *trie_[T]) FindByteReversely(b []byte) (T, bool) {
	if t == nil {
		return t.Value(), false
	}

	n := t
	ok := false
	for i := len(b) - 1; i >= 0; i-- {
		n, ok = n.Next(b[i])
		if !ok {
			return n.Value(), false
		}
	}

	return n.Value(), true
}

func (t *trie_[T]) Value() T {
	if t == nil {
		var zero T
		return zero
	}
	return t.value
}

func (t *trie_[T]) Next(key byte) (*trie_[T], bool) {
	if t == nil || t.next == nil {
		return nil, false
	}

	n, ok := t.next[key]
	return n, ok
}

func newTrie[T comparable](set map[string]T) trie[T] {
	root := &trie_[T]{}
	for k, v := range set {
		_ = root.AddText(k, v)
	}

	return root
}
".
Proof. vm_compute. reflexivity. Qed.

(** /repo/kind_resetter_all.go *)
Definition repo_kind_resetter_all : list item := [(DOther $"package" (shown $" goast"), 1);
  (DOther $"import" (shown $" (
	""github.com/yanun0323/goast/charset""
	""github.com/yanun0323/goast/helper""
	""github.com/yanun0323/goast/kind""
)"), 1);
  (DFunc None $"resetKind" [] (Flat (PCons (Some $"n") (TWord $"*Node") PNil)) (ROne (TWord $"*Node")) (Some (shown $"
	switch n.Kind() {
	case kind.Func:
		return funcResetter{isFuncKeywordLeading: true}.Run(n)
	case kind.Type:
		return typeResetter{}.Run(n)
	}
	return nil
")) None, 1);
  (DLineComment $" type kindResetter interface {", 0);
  (DLineComment $" 	Run(*Node, ...func(*Node)) *Node", 0);
  (DLineComment $" }", 1);
  (DFunc None $"handleHook" [] (Calls (PCons (Some $"n") (TWord $"*Node") PNil) (Some $"hooks") $"...func" (PCons None (TWord $"*Node") PNil) PNil) RNone (Some (shown $"
	for _, hook := range hooks {
		hook(n)
	}
")) None, 1);
  (DLineComment $" func generalResetter() kindResetter {", 0);
  (DLineComment $" 	return &genericResetter{", 0);
  (DLineComment $" 		DeeperResetterTable: map[kind.Kind]kindResetter{", 0);
  (DLineComment $" 			kind.Func: funcResetter{isFuncKeywordLeading: true},", 0);
  (DLineComment $" 			kind.Type: typeResetter{},", 0);
  (DLineComment $" 			kind.", 0);
  (DLineComment $" 		},", 0);
  (DLineComment $" 	}", 0);
  (DLineComment $" }", 1);
  (DLineComment $" genericResetter stands for COMMON genericResetter", 0);
  (DLineComment $" type genericResetter struct {", 0);
  (DLineComment $" 	TriggerKind         charset.Set[kind.Kind]", 0);
  (DLineComment $" 	TriggerLimit        int", 0);
  (DLineComment $" 	KindChangeTable     map[int]kind.Kind", 0);
  (DLineComment $" 	ChangeableKind      charset.Set[kind.Kind]", 0);
  (DLineComment $" 	ReturnKind          charset.Set[kind.Kind]", 0);
  (DLineComment $" 	DeeperResetterTable map[kind.Kind]kindResetter", 0);
  (DLineComment $" }", 1);
  (DLineComment $" func (r genericResetter) Run(head *Node, _ ...func(*Node)) *Node {", 0);
  (DLineComment $" 	helper.DebugPrint(""genericResetter.Run"", ""\t\t...."", head.DebugText(5))", 0);
  (DLineComment $" 	defer helper.DebugPrint(""genericResetter.Run.Returned"")", 1);
  (DLineComment $" 	var (", 0);
  (DLineComment $" 		skipAll      bool", 0);
  (DLineComment $" 		jumpTo       *Node", 0);
  (DLineComment $" 		triggered    bool", 0);
  (DLineComment $" 		triggerIndex int", 1);
  (DLineComment $" 		triggerLimit = r.TriggerLimit", 0);
  (DLineComment $" 	)", 1);
  (DLineComment $" 	return head.IterNext(func(n *Node) bool {", 0);
  (DLineComment $" 		if skipAll {", 0);
  (DLineComment $" 			return true", 0);
  (DLineComment $" 		}", 1);
  (DLineComment $" 		if jumpTo != nil {", 0);
  (DLineComment $" 			if jumpTo != n {", 0);
  (DLineComment $" 				return true", 0);
  (DLineComment $" 			}", 0);
  (DLineComment $" 			jumpTo = nil", 0);
  (DLineComment $" 		}", 1);
  (DLineComment $" 		//  ReturnKind > deeperResetter > TriggerKind > ChangeableKind > UnchangeableKind", 0);
  (DLineComment $" 		if r.ReturnKind.Contain(n.Kind()) {", 0);
  (DLineComment $" 			return false", 0);
  (DLineComment $" 		}", 1);
  (DLineComment $" 		if resetter, ok := r.DeeperResetterTable[n.Kind()]; ok && resetter != nil {", 0);
  (DLineComment $" 			jumpTo = resetter.Run(n)", 0);
  (DLineComment $" 			skipAll = jumpTo == nil", 0);
  (DLineComment $" 			return true", 0);
  (DLineComment $" 		}", 1);
  (DLineComment $" 		if r.TriggerKind.Contain(n.Kind()) {", 0);
  (DLineComment $" 			triggered = true", 0);
  (DLineComment $" 			triggerIndex = 0", 0);
  (DLineComment $" 			return true", 0);
  (DLineComment $" 		}", 1);
  (DLineComment $" 		if triggerLimit == 0 || !triggered || !r.ChangeableKind.Contain(n.Kind()) {", 0);
  (DLineComment $" 			return true", 0);
  (DLineComment $" 		}", 1);
  (DLineComment $" 		triggerIndex++", 0);
  (DLineComment $" 		if triggerLimit > 0 {", 0);
  (DLineComment $" 			triggerLimit--", 0);
  (DLineComment $" 		}", 1);
  (DLineComment $" 		if k, ok := r.KindChangeTable[triggerIndex]; ok && k != kind.None {", 0);
  (DLineComment $" 			n.SetKind(k)", 0);
  (DLineComment $" 		}", 1);
  (DLineComment $" 		return true", 0);
  (DLineComment $" 	})", 0);
  (DLineComment $" }", 1);
  (DStruct $"paramResetter" [] [FieldRow $"skip" [] 7 (TWord $"bool") PNil None None; FieldRow $"resetKind" [] 2 (TWord $"kind.Kind") PNil None None; FieldRow $"returnKinds" [] 0 (TSlice (TWord $"kind.Kind")) PNil None None] None, 1);
  (DFunc (Some ((Some $"r"), (TWord $"paramResetter"))) $"Run" [] (Calls (PCons (Some $"head") (TWord $"*Node") PNil) (Some $"hooks") $"...func" (PCons None (TWord $"*Node") PNil) PNil) (ROne (TWord $"*Node")) (Some (shown $"
	helper.DebugPrint(""paramResetter.Run"", ""\t\t...."", head.debugText(5))
	defer helper.DebugPrint(""paramResetter.Run.Returned"")

	var (
		skipAll bool
		jumpTo  *Node
		buf     []*Node
	)

	if len(r.returnKinds) == 0 {
		handleHook(head, hooks...)
		return head.Next()
	}

	returnKindSet := charset.New(r.returnKinds...)

	defer func() {
		if len(buf) != 0 {
			n := buf[0]
			next := buf[len(buf)-1].Next()
			n = n.CombineNext(r.resetKind, buf[1:]...)
			n.ReplaceNext(next)
		}
	}()

	return head.IterNext(func(n *Node) bool {
		handleHook(n, hooks...)
		if skipAll {
			return true
		}

		if jumpTo != nil {
			if n != jumpTo {
				return true
			}
			jumpTo = nil
		}

		if returnKindSet.Contain(n.Kind()) { // return kind
			return false
		}

		hooksCopy := make([]func(*Node), len(hooks))
		copy(hooksCopy, hooks)
		appendedHooks := append(hooksCopy, func(nn *Node) {
			buf = helper.AppendUnrepeatable(buf, nn)
		})

		switch n.Kind() {
		case kind.ParenthesisLeft:
			jumpTo = parenthesisResetter{skip: r.skip}.Run(n, appendedHooks...)
			skipAll = jumpTo == nil
			return true
		case kind.CurlyBracketLeft:
			jumpTo = curlyBracketResetter{skip: r.skip}.Run(n, appendedHooks...)
			skipAll = jumpTo == nil
			return true
		case kind.SquareBracketLeft:
			jumpTo = squareBracketResetter{skip: r.skip}.Run(n, appendedHooks...)
			skipAll = jumpTo == nil
			return true
		case kind.Func:
			jumpTo = funcResetter{isNotMethod: true}.Run(n, hooks...)
			skipAll = jumpTo == nil
			return true
		case kind.Comment:
			return true
		default:
			if !r.skip {
				buf = helper.AppendUnrepeatable(buf, n)
			}

			return true
		}
	})
")) None, 0)].
Example C75_repo_kind_resetter_all_ok : file_ok repo_kind_resetter_all.
Proof. apply (forallb_ok (fun i => decl_okb (fst i))); [intros [d k]; apply decl_okb_ok|]. vm_compute. reflexivity. Qed.
Example C75_repo_kind_resetter_all_text : file_text repo_kind_resetter_all = $"package goast

import (
	""github.com/yanun0323/goast/charset""
	""github.com/yanun0323/goast/helper""
	""github.com/yanun0323/goast/kind""
)

func resetKind(n *Node) *Node {
	switch n.Kind() {
	case kind.Func:
		return funcResetter{isFuncKeywordLeading: true}.Run(n)
	case kind.Type:
		return typeResetter{}.Run(n)
	}
	return nil
}

// type kindResetter interface {
// 	Run(*Node, ...func(*Node)) *Node
// }

func handleHook(n *Node, hooks ...func(*Node)) {
	for _, hook := range hooks {
		hook(n)
	}
}

// func generalResetter() kindResetter {
// 	return &genericResetter{
// 		DeeperResetterTable: map[kind.Kind]kindResetter{
// 			kind.Func: funcResetter{isFuncKeywordLeading: true},
// 			kind.Type: typeResetter{},
// 			kind.
// 		},
// 	}
// }

// genericResetter stands for COMMON genericResetter
// type genericResetter struct {
// 	TriggerKind         charset.Set[kind.Kind]
// 	TriggerLimit        int
// 	KindChangeTable     map[int]kind.Kind
// 	ChangeableKind      charset.Set[kind.Kind]
// 	ReturnKind          charset.Set[kind.Kind]
// 	DeeperResetterTable map[kind.Kind]kindResetter
// }

// func (r genericResetter) Run(head *Node, _ ...func(*Node)) *Node {
// 	helper.DebugPrint(""genericResetter.Run"", ""\t\t...."", head.DebugText(5))
// 	defer helper.DebugPrint(""genericResetter.Run.Returned"")

// 	var (
// 		skipAll      bool
// 		jumpTo       *Node
// 		triggered    bool
// 		triggerIndex int

// 		triggerLimit = r.TriggerLimit
// 	)

// 	return head.IterNext(func(n *Node) bool {
// 		if skipAll {
// 			return true
// 		}

// 		if jumpTo != nil {
// 			if jumpTo != n {
// 				return true
// 			}
// 			jumpTo = nil
// 		}

// 		//  ReturnKind > deeperResetter > TriggerKind > ChangeableKind > UnchangeableKind
// 		if r.ReturnKind.Contain(n.Kind()) {
// 			return false
// 		}

// 		if resetter, ok := r.DeeperResetterTable[n.Kind()]; ok && resetter != nil {
// 			jumpTo = resetter.Run(n)
// 			skipAll = jumpTo == nil
// 			return true
// 		}

// 		if r.TriggerKind.Contain(n.Kind()) {
// 			triggered = true
// 			triggerIndex = 0
// 			return true
// 		}

// 		if triggerLimit == 0 || !triggered || !r.ChangeableKind.Contain(n.Kind()) {
// 			return true
// 		}

// 		triggerIndex++
// 		if triggerLimit > 0 {
// 			triggerLimit--
// 		}

// 		if k, ok := r.KindChangeTable[triggerIndex]; ok && k != kind.None {
// 			n.SetKind(k)
// 		}

// 		return true
// 	})
// }

type paramResetter struct {
	skip        bool
	resetKind   kind.Kind
	returnKinds []kind.Kind
}

func (r paramResetter) Run(head *Node, hooks ...func(*Node)) *Node {
	helper.DebugPrint(""paramResetter.Run"", ""\t\t...."", head.debugText(5))
	defer helper.DebugPrint(""paramResetter.Run.Returned"")

	var (
		skipAll bool
		jumpTo  *Node
		buf     []*Node
	)

	if len(r.returnKinds) == 0 {
		handleHook(head, hooks...)
		return head.Next()
	}

	returnKindSet := charset.New(r.returnKinds...)

	defer func() {
		if len(buf) != 0 {
			n := buf[0]
			next := buf[len(buf)-1].Next()
			n = n.CombineNext(r.resetKind, buf[1:]...)
			n.ReplaceNext(next)
		}
	}()

	return head.IterNext(func(n *Node) bool {
		handleHook(n, hooks...)
		if skipAll {
			return true
		}

		if jumpTo != nil {
			if n != jumpTo {
				return true
			}
			jumpTo = nil
		}

		if returnKindSet.Contain(n.Kind()) { // return kind
			return false
		}

		hooksCopy := make([]func(*Node), len(hooks))
		copy(hooksCopy, hooks)
		appendedHooks := append(hooksCopy, func(nn *Node) {
			buf = helper.AppendUnrepeatable(buf, nn)
		})

		switch n.Kind() {
		case kind.ParenthesisLeft:
			jumpTo = parenthesisResetter{skip: r.skip}.Run(n, appendedHooks...)
			skipAll = jumpTo == nil
			return true
		case kind.CurlyBracketLeft:
			jumpTo = curlyBracketResetter{skip: r.skip}.Run(n, appendedHooks...)
			skipAll = jumpTo == nil
			return true
		case kind.SquareBracketLeft:
			jumpTo = squareBracketResetter{skip: r.skip}.Run(n, appendedHooks...)
			skipAll = jumpTo == nil
			return true
		case kind.Func:
			jumpTo = funcResetter{isNotMethod: true}.Run(n, hooks...)
			skipAll = jumpTo == nil
			return true
		case kind.Comment:
			return true
		default:
			if !r.skip {
				buf = helper.AppendUnrepeatable(buf, n)
			}

			return true
		}
	})
}
".
Proof. vm_compute. reflexivity. Qed.

(** /repo/kind_resetter_func.go *)
Definition repo_kind_resetter_func : list item := [(DOther $"package" (shown $" goast"), 1);
  (DOther $"import" (shown $" (
	""github.com/yanun0323/goast/charset""
	""github.com/yanun0323/goast/helper""
	""github.com/yanun0323/goast/kind""
)"), 1);
  (DLineComment $" funcResetter includes:", 0);
  (DLineComment $"", 0);
  (DLineComment $"   - function with name and '{}' : func Hello() (string, error) {}", 0);
  (DLineComment $"", 0);
  (DLineComment $"   - function with no name but with '{}': func () string {}", 0);
  (DLineComment $"", 0);
  (DLineComment $"   - function with no name and no '{}': func () string", 0);
  (DLineComment $"", 0);
  (DLineComment $"   - function (method) with naming receiver: func (r *Receiver) Hello() string {}", 0);
  (DLineComment $"", 0);
  (DLineComment $"   - function (method) with no naming receiver: func (*Receiver) Hello() string {}", 0);
  (DLineComment $"", 0);
  (DLineComment $"   - [x] function in interface definition: Hello(string) string", 0);
  (DLineComment $"", 0);
  (DLineComment $"   - [x] function as parameter: (fn func(string) error)", 0);
  (DLineComment $"", 0);
  (DLineComment $"   - [x] temporary defined function: func(int, string) { ... }(5, ""hello"")", 0);
  (DStruct $"funcResetter" [] [FieldRow $"isParameter" [] 10 (TWord $"bool") PNil None None; FieldRow $"isFuncKeywordLeading" [] 1 (TWord $"bool") PNil None None; FieldRow $"isInterfaceDefinition" [] 0 (TWord $"bool") PNil None None; FieldRow $"isNotMethod" [] 10 (TWord $"bool") PNil None None] None, 1);
  (DFunc (Some ((Some $"r"), (TWord $"funcResetter"))) $"Run" [] (Calls (PCons (Some $"head") (TWord $"*Node") PNil) (Some $"hooks") $"...func" (PCons None (TWord $"*Node") PNil) PNil) (ROne (TWord $"*Node")) (Some (shown $"
	helper.DebugPrint(""funcResetter.Run"", ""\t\t...."", head.debugText(5))
	defer helper.DebugPrint(""funcResetter.Run.Returned"")

	if r.isParameter {
		return r.handleParameterFunc(head, hooks...)
	}

	if r.isInterfaceDefinition {
		return r.handleGeneralFunc(head, []kind.Kind{kind.NewLine}, hooks...)
	}

	if r.isTemporaryFunc(head) {
		return r.handleGeneralFunc(head, []kind.Kind{kind.NewLine}, hooks...)
	}

	// handle func keyword leading
	if r.isFuncKeywordLeading {
		if head.Kind() != kind.Func {
			handleHook(head, hooks...)
			return head.Next()
		}

		handleHook(head, hooks...)
		head = head.Next() // skip first 'func' keyword
	}

	var (
		foundFuncOrMethod bool
		isMethod          bool
		skipAll           bool
		jumpTo            *Node
	)

	if r.isNotMethod {
		foundFuncOrMethod = true
		isMethod = false
	}

	return head.IterNext(func(n *Node) bool {
		handleHook(n, hooks...)
		if skipAll {
			return true
		}

		if jumpTo != nil {
			if n != jumpTo {
				return true
			}
			jumpTo = nil
		}

		// determine func or method
		if !foundFuncOrMethod {
			switch n.Kind() {
			case kind.Raw:
				foundFuncOrMethod = true
			case kind.ParenthesisLeft:
				foundFuncOrMethod = true
				isMethod = true
			default:
				return true
			}
			// keep going when find func/method
		}

		if isMethod { // '('
			isMethod = false
			jumpTo = parenthesisResetter{isReceiver: true}.Run(n, hooks...)
			skipAll = jumpTo == nil
			return true
		}

		switch n.Kind() {
		case kind.NewLine: // return kind
			return false
		default:
			jumpTo = r.handleGeneralFunc(head, []kind.Kind{kind.NewLine}, hooks...)
			skipAll = jumpTo == nil
			return true
		}
	})
")) None, 1);
  (DLineComment $" handleTemporaryFunc starts with 'func' or next of 'func'", 0);
  (DFunc (Some ((Some $"r"), (TWord $"funcResetter"))) $"handleGeneralFunc" [] (Calls (PCons (Some $"head") (TWord $"*Node") (PCons (Some $"returnKinds") (TSlice (TWord $"kind.Kind")) PNil)) (Some $"hooks") $"...func" (PCons None (TWord $"*Node") PNil) PNil) (ROne (TWord $"*Node")) (Some (shown $"
	helper.DebugPrint(""funcResetter.handleGeneralFunc"", ""\t\t...."", head.debugText(5))
	defer helper.DebugPrint(""funcResetter.handleGeneralFunc.Returned"")

	var (
		skipAll bool
		jumpTo  *Node

		isFuncNameAssigned bool
		isFuncParamHandled bool
		isReturnKind       charset.Set[kind.Kind]
	)

	if len(returnKinds) != 0 {
		isReturnKind = charset.New(returnKinds...)
	} else {
		isReturnKind = charset.New(kind.NewLine)
	}

	if head.Kind() == kind.Func {
		handleHook(head, hooks...)
		head = head.Next() // skip first 'func'
	}

	return head.IterNext(func(n *Node) bool {
		handleHook(n, hooks...)
		if skipAll {
			return true
		}

		if jumpTo != nil {
			if n != jumpTo {
				return true
			}
			jumpTo = nil
		}

		// return kind
		if isReturnKind.Contain(n.Kind()) {
			return !isFuncParamHandled
		}

		switch n.Kind() {
		case kind.Comment:
			return true
		case kind.Raw:
			if !isFuncNameAssigned {
				n.SetKind(kind.FuncName)
				isFuncNameAssigned = true
			}
			return true
		case kind.Space:
			if isFuncNameAssigned && isFuncParamHandled {
				jumpTo = r.handleSingleReturnType(n, hooks...)
				skipAll = jumpTo == nil
				return true
			}
			return true
		case kind.ParenthesisLeft:
			isFuncParamHandled = true
			jumpTo = parenthesisResetter{}.Run(n, hooks...)
			skipAll = jumpTo == nil
			return true
		case kind.CurlyBracketLeft:
			jumpTo = curlyBracketResetter{skip: true}.Run(n, hooks...)
			skipAll = jumpTo == nil
			return true
		case kind.SquareBracketLeft:
			isFuncParamHandled = true
			jumpTo = squareBracketResetter{skip: true}.Run(n, hooks...)
			skipAll = jumpTo == nil
			return true
		default:
			return true
		}
	})
")) None, 1);
  (DLineComment $" isTemporaryFunc starts with 'func' or next of 'func'", 0);
  (DFunc (Some ((Some $"r"), (TWord $"funcResetter"))) $"isTemporaryFunc" [] (Flat (PCons (Some $"head") (TWord $"*Node") PNil)) (ROne (TWord $"bool")) (Some (shown $"
	found := head.findNext(
		[]kind.Kind{kind.NewLine, kind.CurlyBracketRight},
		findNodeOption{
			IsOutsideParenthesis:   true,
			IsOutsideCurlyBracket:  true,
			IsOutsideSquareBracket: true,
		},
	)

	if found.Kind() != kind.CurlyBracketRight {
		return false
	}

	return found.Next().Kind() == kind.ParenthesisLeft
")) None, 1);
  (DLineComment $" handleParameterFunc starts with 'func'", 0);
  (DFunc (Some ((Some $"r"), (TWord $"funcResetter"))) $"handleParameterFunc" [] (Calls (PCons (Some $"head") (TWord $"*Node") PNil) (Some $"hooks") $"...func" (PCons None (TWord $"*Node") PNil) PNil) (ROne (TWord $"*Node")) (Some (shown $"
	helper.DebugPrint(""funcResetter.handleParameterFunc"", ""\t\t...."", head.debugText(5))
	defer helper.DebugPrint(""funcResetter.handleParameterFunc.Returned"")

	n := r.handleGeneralFunc(head, []kind.Kind{kind.Comma, kind.ParenthesisRight, kind.NewLine}, hooks...)
	if n.Kind() == kind.ParenthesisRight {
		handleHook(n, hooks...)
		return n.Next()
	}
	return n
")) None, 1);
  (DLineComment $" handleSingleReturnType starts with '\s', ends with '\n' and '\s' and '{'", 0);
  (DFunc (Some ((Some $"r"), (TWord $"funcResetter"))) $"handleSingleReturnType" [] (Calls (PCons (Some $"head") (TWord $"*Node") PNil) (Some $"hooks") $"...func" (PCons None (TWord $"*Node") PNil) PNil) (ROne (TWord $"*Node")) (Some (shown $"
	helper.DebugPrint(""funcResetter.handleSingleReturnType"", ""\t\t...."", head.debugText(5))
	defer helper.DebugPrint(""funcResetter.handleSingleReturnType.Returned"")

	if head.Kind() != kind.Space {
		handleHook(head, hooks...)
		return head.Next()
	}

	head = head.Next() // skip first space

	found := head.findNext([]kind.Kind{kind.Comment}, findNodeOption{TargetReverse: true}, hooks...)
	switch found.Kind() {
	case kind.ParenthesisLeft:
		return parenthesisResetter{}.Run(head, hooks...)
	case kind.Func:
		return r.handleParameterFunc(head, hooks...)
	}

	var (
		buf []*Node
	)

	defer func() {
		if len(buf) != 0 {
			n := buf[0]
			next := buf[len(buf)-1].Next()
			n = n.CombineNext(kind.ParamType, buf[1:]...)
			n.ReplaceNext(next)
		}
	}()

	return head.IterNext(func(n *Node) bool {
		handleHook(n, hooks...)
		switch n.Kind() {
		case kind.NewLine, kind.Space, kind.CurlyBracketLeft: // return kind
			return false
		case kind.Comment:
			return true
		default:
			buf = helper.AppendUnrepeatable(buf, n)
			return true
		}
	})
")) None, 0)].
Example C75_repo_kind_resetter_func_ok : file_ok repo_kind_resetter_func.
Proof. apply (forallb_ok (fun i => decl_okb (fst i))); [intros [d k]; apply decl_okb_ok|]. vm_compute. reflexivity. Qed.
Example C75_repo_kind_resetter_func_text : file_text repo_kind_resetter_func = $"package goast

import (
	""github.com/yanun0323/goast/charset""
	""github.com/yanun0323/goast/helper""
	""github.com/yanun0323/goast/kind""
)

// funcResetter includes:
//
//   - function with name and '{}' : func Hello() (string, error) {}
//
//   - function with no name but with '{}': func () string {}
//
//   - function with no name and no '{}': func () string
//
//   - function (method) with naming receiver: func (r *Receiver) Hello() string {}
//
//   - function (method) with no naming receiver: func (*Receiver) Hello() string {}
//
//   - [x] function in interface definition: Hello(string) string
//
//   - [x] function as parameter: (fn func(string) error)
//
//   - [x] temporary defined function: func(int, string) { ... }(5, ""hello"")
type funcResetter struct {
	isParameter           bool
	isFuncKeywordLeading  bool
	isInterfaceDefinition bool
	isNotMethod           bool
}

func (r funcResetter) Run(head *Node, hooks ...func(*Node)) *Node {
	helper.DebugPrint(""funcResetter.Run"", ""\t\t...."", head.debugText(5))
	defer helper.DebugPrint(""funcResetter.Run.Returned"")

	if r.isParameter {
		return r.handleParameterFunc(head, hooks...)
	}

	if r.isInterfaceDefinition {
		return r.handleGeneralFunc(head, []kind.Kind{kind.NewLine}, hooks...)
	}

	if r.isTemporaryFunc(head) {
		return r.handleGeneralFunc(head, []kind.Kind{kind.NewLine}, hooks...)
	}

	// handle func keyword leading
	if r.isFuncKeywordLeading {
		if head.Kind() != kind.Func {
			handleHook(head, hooks...)
			return head.Next()
		}

		handleHook(head, hooks...)
		head = head.Next() // skip first 'func' keyword
	}

	var (
		foundFuncOrMethod bool
		isMethod          bool
		skipAll           bool
		jumpTo            *Node
	)

	if r.isNotMethod {
		foundFuncOrMethod = true
		isMethod = false
	}

	return head.IterNext(func(n *Node) bool {
		handleHook(n, hooks...)
		if skipAll {
			return true
		}

		if jumpTo != nil {
			if n != jumpTo {
				return true
			}
			jumpTo = nil
		}

		// determine func or method
		if !foundFuncOrMethod {
			switch n.Kind() {
			case kind.Raw:
				foundFuncOrMethod = true
			case kind.ParenthesisLeft:
				foundFuncOrMethod = true
				isMethod = true
			default:
				return true
			}
			// keep going when find func/method
		}

		if isMethod { // '('
			isMethod = false
			jumpTo = parenthesisResetter{isReceiver: true}.Run(n, hooks...)
			skipAll = jumpTo == nil
			return true
		}

		switch n.Kind() {
		case kind.NewLine: // return kind
			return false
		default:
			jumpTo = r.handleGeneralFunc(head, []kind.Kind{kind.NewLine}, hooks...)
			skipAll = jumpTo == nil
			return true
		}
	})
}

// handleTemporaryFunc starts with 'func' or next of 'func'
func (r funcResetter) handleGeneralFunc(head *Node, returnKinds []kind.Kind, hooks ...func(*Node)) *Node {
	helper.DebugPrint(""funcResetter.handleGeneralFunc"", ""\t\t...."", head.debugText(5))
	defer helper.DebugPrint(""funcResetter.handleGeneralFunc.Returned"")

	var (
		skipAll bool
		jumpTo  *Node

		isFuncNameAssigned bool
		isFuncParamHandled bool
		isReturnKind       charset.Set[kind.Kind]
	)

	if len(returnKinds) != 0 {
		isReturnKind = charset.New(returnKinds...)
	} else {
		isReturnKind = charset.New(kind.NewLine)
	}

	if head.Kind() == kind.Func {
		handleHook(head, hooks...)
		head = head.Next() // skip first 'func'
	}

	return head.IterNext(func(n *Node) bool {
		handleHook(n, hooks...)
		if skipAll {
			return true
		}

		if jumpTo != nil {
			if n != jumpTo {
				return true
			}
			jumpTo = nil
		}

		// return kind
		if isReturnKind.Contain(n.Kind()) {
			return !isFuncParamHandled
		}

		switch n.Kind() {
		case kind.Comment:
			return true
		case kind.Raw:
			if !isFuncNameAssigned {
				n.SetKind(kind.FuncName)
				isFuncNameAssigned = true
			}
			return true
		case kind.Space:
			if isFuncNameAssigned && isFuncParamHandled {
				jumpTo = r.handleSingleReturnType(n, hooks...)
				skipAll = jumpTo == nil
				return true
			}
			return true
		case kind.ParenthesisLeft:
			isFuncParamHandled = true
			jumpTo = parenthesisResetter{}.Run(n, hooks...)
			skipAll = jumpTo == nil
			return true
		case kind.CurlyBracketLeft:
			jumpTo = curlyBracketResetter{skip: true}.Run(n, hooks...)
			skipAll = jumpTo == nil
			return true
		case kind.SquareBracketLeft:
			isFuncParamHandled = true
			jumpTo = squareBracketResetter{skip: true}.Run(n, hooks...)
			skipAll = jumpTo == nil
			return true
		default:
			return true
		}
	})
}

// isTemporaryFunc starts with 'func' or next of 'func'
func (r funcResetter) isTemporaryFunc(head *Node) bool {
	found := head.findNext(
		[]kind.Kind{kind.NewLine, kind.CurlyBracketRight},
		findNodeOption{
			IsOutsideParenthesis:   true,
			IsOutsideCurlyBracket:  true,
			IsOutsideSquareBracket: true,
		},
	)

	if found.Kind() != kind.CurlyBracketRight {
		return false
	}

	return found.Next().Kind() == kind.ParenthesisLeft
}

// handleParameterFunc starts with 'func'
func (r funcResetter) handleParameterFunc(head *Node, hooks ...func(*Node)) *Node {
	helper.DebugPrint(""funcResetter.handleParameterFunc"", ""\t\t...."", head.debugText(5))
	defer helper.DebugPrint(""funcResetter.handleParameterFunc.Returned"")

	n := r.handleGeneralFunc(head, []kind.Kind{kind.Comma, kind.ParenthesisRight, kind.NewLine}, hooks...)
	if n.Kind() == kind.ParenthesisRight {
		handleHook(n, hooks...)
		return n.Next()
	}
	return n
}

// handleSingleReturnType starts with '\s', ends with '\n' and '\s' and '{'
func (r funcResetter) handleSingleReturnType(head *Node, hooks ...func(*Node)) *Node {
	helper.DebugPrint(""funcResetter.handleSingleReturnType"", ""\t\t...."", head.debugText(5))
	defer helper.DebugPrint(""funcResetter.handleSingleReturnType.Returned"")

	if head.Kind() != kind.Space {
		handleHook(head, hooks...)
		return head.Next()
	}

	head = head.Next() // skip first space

	found := head.findNext([]kind.Kind{kind.Comment}, findNodeOption{TargetReverse: true}, hooks...)
	switch found.Kind() {
	case kind.ParenthesisLeft:
		return parenthesisResetter{}.Run(head, hooks...)
	case kind.Func:
		return r.handleParameterFunc(head, hooks...)
	}

	var (
		buf []*Node
	)

	defer func() {
		if len(buf) != 0 {
			n := buf[0]
			next := buf[len(buf)-1].Next()
			n = n.CombineNext(kind.ParamType, buf[1:]...)
			n.ReplaceNext(next)
		}
	}()

	return head.IterNext(func(n *Node) bool {
		handleHook(n, hooks...)
		switch n.Kind() {
		case kind.NewLine, kind.Space, kind.CurlyBracketLeft: // return kind
			return false
		case kind.Comment:
			return true
		default:
			buf = helper.AppendUnrepeatable(buf, n)
			return true
		}
	})
}
".
Proof. vm_compute. reflexivity. Qed.

(** /repo/kind_resetter_parenthesis.go *)
Definition repo_kind_resetter_parenthesis : list item := [(DOther $"package" (shown $" goast"), 1);
  (DOther $"import" (shown $" (
	""github.com/yanun0323/goast/helper""
	""github.com/yanun0323/goast/kind""
)"), 1);
  (DLineComment $" parenthesisResetter starts with '(', ends with ')'", 0);
  (DStruct $"parenthesisResetter" [] [FieldRow $"skip" [] 6 (TWord $"bool") PNil None None; FieldRow $"isReceiver" [] 0 (TWord $"bool") PNil None None] None, 1);
  (DFunc (Some ((Some $"r"), (TWord $"parenthesisResetter"))) $"Run" [] (Calls (PCons (Some $"head") (TWord $"*Node") PNil) (Some $"hooks") $"...func" (PCons None (TWord $"*Node") PNil) PNil) (ROne (TWord $"*Node")) (Some (shown $"
	helper.DebugPrint(""parenthesisResetter.Run"", ""\t\t...."", head.debugText(5))
	defer helper.DebugPrint(""parenthesisResetter.Run.Returned"")

	if r.skip {
		return head.skipNestNext(kind.ParenthesisLeft, kind.ParenthesisRight, hooks...)
	}

	if head.Kind() != kind.ParenthesisLeft {
		handleHook(head, hooks...)
		return head.Next()
	}

	var (
		skipAll bool
		jumpTo  *Node
	)

	return head.IterNext(func(n *Node) bool {
		handleHook(n, hooks...)
		if skipAll {
			return true
		}

		if jumpTo != nil {
			if n != jumpTo {
				return true
			}
			jumpTo = nil
		}

		switch n.Kind() {
		case kind.ParenthesisRight: // return kind
			return false
		case kind.Comment, kind.Comma, kind.ParenthesisLeft, kind.Tab, kind.NewLine, kind.Space:
			return true
		default:
			jumpTo = r.handleParenthesisParam(n, r.isReceiver, hooks...)
			skipAll = jumpTo == nil
			return true
		}
	})
")) None, 1);
  (DLineComment $" handleParenthesisParam starts with next of '(' and ',', ends with ',' and ')'", 0);
  (DFunc (Some ((Some $"r"), (TWord $"parenthesisResetter"))) $"handleParenthesisParam" [] (Calls (PCons (Some $"head") (TWord $"*Node") (PCons (Some $"isReceiver") (TWord $"bool") PNil)) (Some $"hooks") $"...func" (PCons None (TWord $"*Node") PNil) PNil) (ROne (TWord $"*Node")) (Some (shown $"
	helper.DebugPrint(""parenthesisResetter.handleParenthesisParam"", ""\t\t...."", head.debugText(5))
	defer helper.DebugPrint(""parenthesisResetter.handleParenthesisParam.Returned"")

	var (
		skipAll bool
		jumpTo  *Node

		named bool
	)

	nameKind := kind.ParamName
	typeKind := kind.ParamType
	if isReceiver {
		nameKind = kind.MethodReceiverName
		typeKind = kind.MethodReceiverType
	}

	validParamCount := 0
	head.IterNext(func(n *Node) bool {
		switch n.Kind() {
		case kind.Comma, kind.ParenthesisRight:
			return false
		case kind.Space, kind.Tab, kind.Comment, kind.NewLine:
			return true
		default:
			validParamCount++
			return true
		}
	})

	return head.IterNext(func(n *Node) bool {
		handleHook(n, hooks...)
		if skipAll {
			return true
		}

		if jumpTo != nil {
			if n != jumpTo {
				return true
			}
			jumpTo = nil
		}

		switch n.Kind() {
		case kind.Comma, kind.ParenthesisRight: // return kind
			return false
		case kind.SquareBracketLeft: // ignore including generic
			jumpTo = squareBracketResetter{}.Run(n, hooks...)
			skipAll = jumpTo == nil
			return true
		case kind.Comment, kind.ParenthesisLeft, kind.Tab, kind.NewLine, kind.Space:
			return true
		case kind.Func:
			jumpTo = funcResetter{isParameter: true}.Run(n, hooks...)
			skipAll = jumpTo == nil
			return true
		case kind.Raw, kind.ParamType /* for struct resetter */, kind.ParamName /* for struct resetter */ :
			if validParamCount == 1 {
				n.SetKind(typeKind)
				return true
			}

			if !named {
				n.SetKind(nameKind)
				named = true
				return true
			}
			n.SetKind(typeKind)
			return true
		default:
			return true
		}
	})
")) None, 1);
  (DLineComment $" curlyBracketResetter starts with '{', ends with '}'", 0);
  (DStruct $"curlyBracketResetter" [] [FieldRow $"skip" [] 0 (TWord $"bool") PNil None None] None, 1);
  (DFunc (Some ((Some $"r"), (TWord $"curlyBracketResetter"))) $"Run" [] (Calls (PCons (Some $"head") (TWord $"*Node") PNil) (Some $"hooks") $"...func" (PCons None (TWord $"*Node") PNil) PNil) (ROne (TWord $"*Node")) (Some (shown $"
	helper.DebugPrint(""curlyBracketResetter.Run"", ""\t\t...."", head.debugText(5))
	defer helper.DebugPrint(""curlyBracketResetter.Run.Returned"")

	if r.skip {
		return head.skipNestNext(kind.CurlyBracketLeft, kind.CurlyBracketRight, hooks...)
	}

	// TODO: handle content
	return head.skipNestNext(kind.CurlyBracketLeft, kind.CurlyBracketRight, hooks...)
")) None, 1);
  (DLineComment $" squareBracketResetter starts with '[', ends with ']'", 0);
  (DStruct $"squareBracketResetter" [] [FieldRow $"skip" [] 0 (TWord $"bool") PNil None None] None, 1);
  (DFunc (Some ((Some $"r"), (TWord $"squareBracketResetter"))) $"Run" [] (Calls (PCons (Some $"head") (TWord $"*Node") PNil) (Some $"hooks") $"...func" (PCons None (TWord $"*Node") PNil) PNil) (ROne (TWord $"*Node")) (Some (shown $"
	helper.DebugPrint(""squareBracketResetter.Run"", ""\t\t...."", head.debugText(5))
	defer helper.DebugPrint(""squareBracketResetter.Run.Returned"")

	if r.skip {
		return head.skipNestNext(kind.SquareBracketLeft, kind.SquareBracketRight, hooks...)
	}

	// TODO: handle generic
	return head.skipNestNext(kind.SquareBracketLeft, kind.SquareBracketRight, hooks...)
")) None, 1);
  (DLineComment $" TODO: Refactor parentheses resetters", 1);
  (DLineComment $" parenthesisResetter starts with '(', ends with ')'", 0);
  (DStruct $"parenthesisResetter2" [] [FieldRow $"skip" [] 10 (TWord $"bool") PNil None None; FieldRow $"isFuncReceiver" [] 0 (TWord $"bool") PNil None None] None, 1);
  (DFunc (Some ((Some $"r"), (TWord $"parenthesisResetter2"))) $"Run" [] (Calls (PCons (Some $"head") (TWord $"*Node") PNil) (Some $"hooks") $"...func" (PCons None (TWord $"*Node") PNil) PNil) (ROne (TWord $"*Node")) (Some (shown $"
	helper.DebugPrint(""parenthesisResetter.Run"", ""\t\t...."", head.debugText(5))
	defer helper.DebugPrint(""parenthesisResetter.Run.Returned"")

	if r.skip {
		return head.skipNestNext(kind.ParenthesisLeft, kind.ParenthesisRight, hooks...)
	}

	if head.Kind() != kind.ParenthesisLeft {
		handleHook(head, hooks...)
		return head.Next()
	}

	handleHook(head, hooks...)
	head = head.Next() // skip first '('

	var (
		skipAll bool
		jumpTo  *Node
	)

	return head.IterNext(func(n *Node) bool {
		handleHook(n, hooks...)
		if skipAll {
			return true
		}

		if jumpTo != nil {
			if n != jumpTo {
				return true
			}
			jumpTo = nil
		}

		switch n.Kind() {
		case kind.ParenthesisRight: // return kind
			return false
		case kind.ParenthesisLeft:
			jumpTo = parenthesisResetter2{}.Run(n, hooks...)
			skipAll = jumpTo == nil
			return true
		case kind.Comment, kind.Comma, kind.Tab, kind.NewLine, kind.Space:
			return true
		default:
			jumpTo = r.handleParenthesisParam(n, r.isFuncReceiver, hooks...)
			skipAll = jumpTo == nil
			return true
		}

	})
")) None, 1);
  (DLineComment $" TODO: more efficient parenthesis handler", 0);
  (DLineComment $" handleParenthesisParam starts with next of '(' and ',', ends with ',' and ')'", 0);
  (DFunc (Some ((Some $"r"), (TWord $"parenthesisResetter2"))) $"handleParenthesisParam" [] (Calls (PCons (Some $"head") (TWord $"*Node") (PCons (Some $"isReceiver") (TWord $"bool") PNil)) (Some $"hooks") $"...func" (PCons None (TWord $"*Node") PNil) PNil) (ROne (TWord $"*Node")) (Some (shown $"
	helper.DebugPrint(""parenthesisResetter.handleParenthesisParam"", ""\t\t...."", head.debugText(5))
	defer helper.DebugPrint(""parenthesisResetter.handleParenthesisParam.Returned"")

	collection := []*Node{}
	returned := head.IterNext(func(n *Node) bool {
		switch n.Kind() {
		case kind.Comma, kind.ParenthesisRight:
			return false
		case kind.Space:
			if len(collection) != 0 {
				collection = append(collection, n)
			}

			return true
		case kind.Tab, kind.Comment:
			return true
		default:
			collection = append(collection, n)
			return true
		}
	})

	return returned
")) None, 0)].
Example C75_repo_kind_resetter_parenthesis_ok : file_ok repo_kind_resetter_parenthesis.
Proof. apply (forallb_ok (fun i => decl_okb (fst i))); [intros [d k]; apply decl_okb_ok|]. vm_compute. reflexivity. Qed.
Example C75_repo_kind_resetter_parenthesis_text : file_text repo_kind_resetter_parenthesis = $"package goast

import (
	""github.com/yanun0323/goast/helper""
	""github.com/yanun0323/goast/kind""
)

// parenthesisResetter starts with '(', ends with ')'
type parenthesisResetter struct {
	skip       bool
	isReceiver bool
}

func (r parenthesisResetter) Run(head *Node, hooks ...func(*Node)) *Node {
	helper.DebugPrint(""parenthesisResetter.Run"", ""\t\t...."", head.debugText(5))
	defer helper.DebugPrint(""parenthesisResetter.Run.Returned"")

	if r.skip {
		return head.skipNestNext(kind.ParenthesisLeft, kind.ParenthesisRight, hooks...)
	}

	if head.Kind() != kind.ParenthesisLeft {
		handleHook(head, hooks...)
		return head.Next()
	}

	var (
		skipAll bool
		jumpTo  *Node
	)

	return head.IterNext(func(n *Node) bool {
		handleHook(n, hooks...)
		if skipAll {
			return true
		}

		if jumpTo != nil {
			if n != jumpTo {
				return true
			}
			jumpTo = nil
		}

		switch n.Kind() {
		case kind.ParenthesisRight: // return kind
			return false
		case kind.Comment, kind.Comma, kind.ParenthesisLeft, kind.Tab, kind.NewLine, kind.Space:
			return true
		default:
			jumpTo = r.handleParenthesisParam(n, r.isReceiver, hooks...)
			skipAll = jumpTo == nil
			return true
		}
	})
}

// handleParenthesisParam starts with next of '(' and ',', ends with ',' and ')'
func (r parenthesisResetter) handleParenthesisParam(head *Node, isReceiver bool, hooks ...func(*Node)) *Node {
	helper.DebugPrint(""parenthesisResetter.handleParenthesisParam"", ""\t\t...."", head.debugText(5))
	defer helper.DebugPrint(""parenthesisResetter.handleParenthesisParam.Returned"")

	var (
		skipAll bool
		jumpTo  *Node

		named bool
	)

	nameKind := kind.ParamName
	typeKind := kind.ParamType
	if isReceiver {
		nameKind = kind.MethodReceiverName
		typeKind = kind.MethodReceiverType
	}

	validParamCount := 0
	head.IterNext(func(n *Node) bool {
		switch n.Kind() {
		case kind.Comma, kind.ParenthesisRight:
			return false
		case kind.Space, kind.Tab, kind.Comment, kind.NewLine:
			return true
		default:
			validParamCount++
			return true
		}
	})

	return head.IterNext(func(n *Node) bool {
		handleHook(n, hooks...)
		if skipAll {
			return true
		}

		if jumpTo != nil {
			if n != jumpTo {
				return true
			}
			jumpTo = nil
		}

		switch n.Kind() {
		case kind.Comma, kind.ParenthesisRight: // return kind
			return false
		case kind.SquareBracketLeft: // ignore including generic
			jumpTo = squareBracketResetter{}.Run(n, hooks...)
			skipAll = jumpTo == nil
			return true
		case kind.Comment, kind.ParenthesisLeft, kind.Tab, kind.NewLine, kind.Space:
			return true
		case kind.Func:
			jumpTo = funcResetter{isParameter: true}.Run(n, hooks...)
			skipAll = jumpTo == nil
			return true
		case kind.Raw, kind.ParamType /* for struct resetter */, kind.ParamName /* for struct resetter */ :
			if validParamCount == 1 {
				n.SetKind(typeKind)
				return true
			}

			if !named {
				n.SetKind(nameKind)
				named = true
				return true
			}
			n.SetKind(typeKind)
			return true
		default:
			return true
		}
	})
}

// curlyBracketResetter starts with '{', ends with '}'
type curlyBracketResetter struct {
	skip bool
}

func (r curlyBracketResetter) Run(head *Node, hooks ...func(*Node)) *Node {
	helper.DebugPrint(""curlyBracketResetter.Run"", ""\t\t...."", head.debugText(5))
	defer helper.DebugPrint(""curlyBracketResetter.Run.Returned"")

	if r.skip {
		return head.skipNestNext(kind.CurlyBracketLeft, kind.CurlyBracketRight, hooks...)
	}

	// TODO: handle content
	return head.skipNestNext(kind.CurlyBracketLeft, kind.CurlyBracketRight, hooks...)
}

// squareBracketResetter starts with '[', ends with ']'
type squareBracketResetter struct {
	skip bool
}

func (r squareBracketResetter) Run(head *Node, hooks ...func(*Node)) *Node {
	helper.DebugPrint(""squareBracketResetter.Run"", ""\t\t...."", head.debugText(5))
	defer helper.DebugPrint(""squareBracketResetter.Run.Returned"")

	if r.skip {
		return head.skipNestNext(kind.SquareBracketLeft, kind.SquareBracketRight, hooks...)
	}

	// TODO: handle generic
	return head.skipNestNext(kind.SquareBracketLeft, kind.SquareBracketRight, hooks...)
}

// TODO: Refactor parentheses resetters

// parenthesisResetter starts with '(', ends with ')'
type parenthesisResetter2 struct {
	skip           bool
	isFuncReceiver bool
}

func (r parenthesisResetter2) Run(head *Node, hooks ...func(*Node)) *Node {
	helper.DebugPrint(""parenthesisResetter.Run"", ""\t\t...."", head.debugText(5))
	defer helper.DebugPrint(""parenthesisResetter.Run.Returned"")

	if r.skip {
		return head.skipNestNext(kind.ParenthesisLeft, kind.ParenthesisRight, hooks...)
	}

	if head.Kind() != kind.ParenthesisLeft {
		handleHook(head, hooks...)
		return head.Next()
	}

	handleHook(head, hooks...)
	head = head.Next() // skip first '('

	var (
		skipAll bool
		jumpTo  *Node
	)

	return head.IterNext(func(n *Node) bool {
		handleHook(n, hooks...)
		if skipAll {
			return true
		}

		if jumpTo != nil {
			if n != jumpTo {
				return true
			}
			jumpTo = nil
		}

		switch n.Kind() {
		case kind.ParenthesisRight: // return kind
			return false
		case kind.ParenthesisLeft:
			jumpTo = parenthesisResetter2{}.Run(n, hooks...)
			skipAll = jumpTo == nil
			return true
		case kind.Comment, kind.Comma, kind.Tab, kind.NewLine, kind.Space:
			return true
		default:
			jumpTo = r.handleParenthesisParam(n, r.isFuncReceiver, hooks...)
			skipAll = jumpTo == nil
			return true
		}

	})
}

// TODO: more efficient parenthesis handler
// handleParenthesisParam starts with next of '(' and ',', ends with ',' and ')'
func (r parenthesisResetter2) handleParenthesisParam(head *Node, isReceiver bool, hooks ...func(*Node)) *Node {
	helper.DebugPrint(""parenthesisResetter.handleParenthesisParam"", ""\t\t...."", head.debugText(5))
	defer helper.DebugPrint(""parenthesisResetter.handleParenthesisParam.Returned"")

	collection := []*Node{}
	returned := head.IterNext(func(n *Node) bool {
		switch n.Kind() {
		case kind.Comma, kind.ParenthesisRight:
			return false
		case kind.Space:
			if len(collection) != 0 {
				collection = append(collection, n)
			}

			return true
		case kind.Tab, kind.Comment:
			return true
		default:
			collection = append(collection, n)
			return true
		}
	})

	return returned
}
".
Proof. vm_compute. reflexivity. Qed.

(** /repo/kind_resetter_type.go *)
Definition repo_kind_resetter_type : list item := [(DOther $"package" (shown $" goast"), 1);
  (DOther $"import" (shown $" (
	""github.com/yanun0323/goast/helper""
	""github.com/yanun0323/goast/kind""
)"), 1);
  (DLineComment $" typeResetter head should be 'type'", 0);
  (DLineComment $"", 0);
  (DLineComment $" return key kind: '}' '\n'", 0);
  (DType $"typeResetter" [] false (TEmpty $"struct") PNil None, 1);
  (DFunc (Some ((Some $"r"), (TWord $"typeResetter"))) $"Run" [] (Calls (PCons (Some $"head") (TWord $"*Node") PNil) (Some $"hooks") $"...func" (PCons None (TWord $"*Node") PNil) PNil) (ROne (TWord $"*Node")) (Some (shown $"
	helper.DebugPrint(""typeResetter.Run"", ""\t\t...."", head.debugText(5))
	defer helper.DebugPrint(""typeResetter.Run.Returned"")

	if head.Kind() != kind.Type {
		handleHook(head, hooks...)
		return head.Next()
	}

	var (
		isTypeNameAssigned   bool
		isSpaceAfterTypeName bool
		skipAll              bool
		jumpTo               *Node
	)

	return head.IterNext(func(n *Node) bool {
		handleHook(n, hooks...)
		if skipAll {
			return true
		}

		if jumpTo != nil {
			if jumpTo == n {
				jumpTo = nil
			}
			return true
		}

		if !isTypeNameAssigned {
			switch n.Kind() {
			case kind.CurlyBracketRight, kind.NewLine: // return kind
				return false
			case kind.Raw:
				n.SetKind(kind.TypeName)
				isTypeNameAssigned = true
				return true
			default:
				return true
			}
		}

		if !isSpaceAfterTypeName {
			switch n.Kind() {
			case kind.Space:
				isSpaceAfterTypeName = true
			case kind.SquareBracketLeft:
				jumpTo = squareBracketResetter{skip: true}.Run(n, hooks...)
				skipAll = jumpTo == nil
				return true
			}
			return true
		}

		switch n.Kind() {
		case kind.Comment:
			return true
		case kind.Interface:
			jumpTo = interfaceResetter{}.Run(n, hooks...)
			skipAll = jumpTo == nil
			return true
		case kind.Struct:
			jumpTo = structResetter{}.Run(n, hooks...)
			skipAll = jumpTo == nil
			return true
		case kind.Func:
			jumpTo = funcResetter{isNotMethod: true}.Run(n, hooks...)
			skipAll = jumpTo == nil
			return true
		case kind.Raw:
			jumpTo = paramResetter{resetKind: kind.ParamType, returnKinds: []kind.Kind{kind.NewLine}}.Run(n, hooks...)
			skipAll = jumpTo == nil
			return true
		case kind.SquareBracketLeft:
			jumpTo = squareBracketResetter{skip: true}.Run(n, hooks...)
			skipAll = jumpTo == nil
			return true
		default:
			return true
		}
	})
")) None, 1);
  (DLineComment $" interfaceResetter starts with 'interface'", 0);
  (DLineComment $"", 0);
  (DLineComment $" return key kind: '}'", 0);
  (DType $"interfaceResetter" [] false (TEmpty $"struct") PNil None, 1);
  (DFunc (Some ((Some $"r"), (TWord $"interfaceResetter"))) $"Run" [] (Calls (PCons (Some $"head") (TWord $"*Node") PNil) (Some $"hooks") $"...func" (PCons None (TWord $"*Node") PNil) PNil) (ROne (TWord $"*Node")) (Some (shown $"
	helper.DebugPrint(""interfaceResetter.Run"", ""\t\t...."", head.debugText(5))
	defer helper.DebugPrint(""interfaceResetter.Run.Returned"")

	var (
		skipAll bool
		jumpTo  *Node
	)

	head = head.findNext([]kind.Kind{kind.CurlyBracketLeft}, findNodeOption{}, hooks...) // set head to '{'

	return head.IterNext(func(n *Node) bool {
		handleHook(n, hooks...)
		if skipAll {
			return true
		}

		if jumpTo != nil {
			if n != jumpTo {
				return true
			}
			jumpTo = nil
		}
		switch n.Kind() {
		case kind.CurlyBracketRight: // return kind
			return false
		case kind.Tab, kind.Comment, kind.NewLine, kind.Space, kind.CurlyBracketLeft:
			return true
		default:
			if r.isThisLineFunction(n) {
				jumpTo = funcResetter{
					isInterfaceDefinition: true,
				}.Run(n, hooks...)
				skipAll = jumpTo == nil
				return true
			}

			if n.Kind() == kind.Raw {
				n.SetKind(kind.TypeName)
			}

			jumpTo = n.findNext([]kind.Kind{kind.NewLine, kind.CurlyBracketRight}, findNodeOption{
				IsOutsideParenthesis:   true,
				IsOutsideCurlyBracket:  true,
				IsOutsideSquareBracket: true,
			}, hooks...)
			skipAll = jumpTo == nil
			return true
		}
	})
")) None, 1);
  (DFunc (Some (None, (TWord $"interfaceResetter"))) $"isThisLineFunction" [] (Flat (PCons (Some $"head") (TWord $"*Node") PNil)) (ROne (TWord $"bool")) (Some (shown $"
	result := false
	_ = head.IterNext(func(n *Node) bool {
		switch n.Kind() {
		case kind.ParenthesisLeft:
			result = true
			return false
		case kind.NewLine:
			return false
		default:
			return true
		}
	})
	return result
")) None, 1);
  (DLineComment $" structResetter starts with 'struct'", 0);
  (DLineComment $"", 0);
  (DLineComment $" return key kind: '}'", 0);
  (DType $"structResetter" [] false (TEmpty $"struct") PNil None, 1);
  (DFunc (Some ((Some $"r"), (TWord $"structResetter"))) $"Run" [] (Calls (PCons (Some $"head") (TWord $"*Node") PNil) (Some $"hooks") $"...func" (PCons None (TWord $"*Node") PNil) PNil) (ROne (TWord $"*Node")) (Some (shown $"
	helper.DebugPrint(""structResetter.Run"", ""\t\t...."", head.debugText(5))
	defer helper.DebugPrint(""structResetter.Run.Returned"")

	var (
		skipAll bool
		jumpTo  *Node
	)

	head = head.findNext([]kind.Kind{kind.CurlyBracketLeft}, findNodeOption{}, hooks...).Next() // skip first of head to '{'

	return head.IterNext(func(n *Node) bool {
		handleHook(n, hooks...)
		if skipAll {
			return true
		}

		if jumpTo != nil {
			if n != jumpTo {
				return true
			}
			jumpTo = nil
		}

		switch n.Kind() {
		case kind.CurlyBracketRight: // return kind
			return false
		case kind.Comment, kind.CurlyBracketLeft, kind.NewLine:
			return true
		default:
			jumpTo = r.handleStructRow(n, hooks...)
			skipAll = jumpTo == nil
			return true
		}
	})
")) None, 1);
  (DLineComment $" handleStructRow returns key kind: '\n'", 0);
  (DLineComment $"", 0);
  (DLineComment $"   - a, b, c int", 0);
  (DLineComment $"", 0);
  (DLineComment $"   - a, b, c func(int) (int, error)", 0);
  (DLineComment $"", 0);
  (DLineComment $"   - a, b, c struct{}", 0);
  (DFunc (Some ((Some $"r"), (TWord $"structResetter"))) $"handleStructRow" [] (Calls (PCons (Some $"head") (TWord $"*Node") PNil) (Some $"hooks") $"...func" (PCons None (TWord $"*Node") PNil) PNil) (ROne (TWord $"*Node")) (Some (shown $"
	helper.DebugPrint(""funcResetter.handleStructRow"", ""\t\t...."", head.debugText(5))
	defer helper.DebugPrint(""funcResetter.handleStructRow.Returned"")

	var (
		skipAll bool
		jumpTo  *Node

		paramNameCount = r.getRowNameCount(head)
	)

	return head.IterNext(func(n *Node) bool {
		handleHook(n, hooks...)
		if skipAll {
			return true
		}

		if jumpTo != nil {
			if n != jumpTo {
				return true
			}
			jumpTo = nil
		}

		switch n.Kind() {
		case kind.NewLine: // return kind
			return false
		case kind.Comment, kind.NewLine, kind.Tab, kind.Space, kind.Comma:
			return true
		case kind.Raw:
			if paramNameCount != 0 {
				paramNameCount--
				n.SetKind(kind.ParamName)
				return true
			}

			n.SetKind(kind.ParamType)
			// jumpTo = paramResetter{resetKind: kind.ParamType, returnKinds: []kind.Kind{kind.NewLine}}.Run(n, hooks...)
			// skipAll = jumpTo == nil
			return true
		case kind.Func:
			jumpTo = funcResetter{isParameter: true}.Run(n, func(n *Node) {
				if n.Kind() == kind.Raw {
					n.SetKind(kind.ParamType)
				}
			})
			skipAll = jumpTo == nil
			return true
		default:
			// jumpTo = paramResetter{resetKind: kind.ParamType, returnKinds: []kind.Kind{kind.NewLine}}.Run(n, hooks...)
			// skipAll = jumpTo == nil
			return true
		}
	})
")) None, 1);
  (DFunc (Some ((Some $"r"), (TWord $"structResetter"))) $"getRowNameCount" [] (Flat (PCons (Some $"head") (TWord $"*Node") PNil)) (ROne (TWord $"int")) (Some (shown $"
	var (
		rawCount           int
		hasComma           bool
		hasSpaceOrAfterRaw bool
		cacheNameCount     int
		nameCount          int
	)

	_ = head.IterNext(func(n *Node) bool {
		switch n.Kind() {
		case kind.NewLine: // return kind
			if hasSpaceOrAfterRaw {
				nameCount = cacheNameCount
			}
			return false
		case kind.Comment, kind.Tab:
			return true
		case kind.Raw:
			rawCount++
			return true
		case kind.Space:
			if rawCount != 0 {
				if !hasComma && cacheNameCount == 0 {
					cacheNameCount++
				}
				hasSpaceOrAfterRaw = true
			}
			return true
		case kind.Comma:
			if cacheNameCount == 0 {
				cacheNameCount++
			}
			hasComma = true
			cacheNameCount++
			nameCount = cacheNameCount
			return true
		default:
			if hasSpaceOrAfterRaw {
				nameCount = cacheNameCount
			}
			return false
		}
	})

	return nameCount
")) None, 0)].
Example C75_repo_kind_resetter_type_ok : file_ok repo_kind_resetter_type.
Proof. apply (forallb_ok (fun i => decl_okb (fst i))); [intros [d k]; apply decl_okb_ok|]. vm_compute. reflexivity. Qed.
Example C75_repo_kind_resetter_type_text : file_text repo_kind_resetter_type = $"package goast

import (
	""github.com/yanun0323/goast/helper""
	""github.com/yanun0323/goast/kind""
)

// typeResetter head should be 'type'
//
// return key kind: '}' '\n'
type typeResetter struct{}

func (r typeResetter) Run(head *Node, hooks ...func(*Node)) *Node {
	helper.DebugPrint(""typeResetter.Run"", ""\t\t...."", head.debugText(5))
	defer helper.DebugPrint(""typeResetter.Run.Returned"")

	if head.Kind() != kind.Type {
		handleHook(head, hooks...)
		return head.Next()
	}

	var (
		isTypeNameAssigned   bool
		isSpaceAfterTypeName bool
		skipAll              bool
		jumpTo               *Node
	)

	return head.IterNext(func(n *Node) bool {
		handleHook(n, hooks...)
		if skipAll {
			return true
		}

		if jumpTo != nil {
			if jumpTo == n {
				jumpTo = nil
			}
			return true
		}

		if !isTypeNameAssigned {
			switch n.Kind() {
			case kind.CurlyBracketRight, kind.NewLine: // return kind
				return false
			case kind.Raw:
				n.SetKind(kind.TypeName)
				isTypeNameAssigned = true
				return true
			default:
				return true
			}
		}

		if !isSpaceAfterTypeName {
			switch n.Kind() {
			case kind.Space:
				isSpaceAfterTypeName = true
			case kind.SquareBracketLeft:
				jumpTo = squareBracketResetter{skip: true}.Run(n, hooks...)
				skipAll = jumpTo == nil
				return true
			}
			return true
		}

		switch n.Kind() {
		case kind.Comment:
			return true
		case kind.Interface:
			jumpTo = interfaceResetter{}.Run(n, hooks...)
			skipAll = jumpTo == nil
			return true
		case kind.Struct:
			jumpTo = structResetter{}.Run(n, hooks...)
			skipAll = jumpTo == nil
			return true
		case kind.Func:
			jumpTo = funcResetter{isNotMethod: true}.Run(n, hooks...)
			skipAll = jumpTo == nil
			return true
		case kind.Raw:
			jumpTo = paramResetter{resetKind: kind.ParamType, returnKinds: []kind.Kind{kind.NewLine}}.Run(n, hooks...)
			skipAll = jumpTo == nil
			return true
		case kind.SquareBracketLeft:
			jumpTo = squareBracketResetter{skip: true}.Run(n, hooks...)
			skipAll = jumpTo == nil
			return true
		default:
			return true
		}
	})
}

// interfaceResetter starts with 'interface'
//
// return key kind: '}'
type interfaceResetter struct{}

func (r interfaceResetter) Run(head *Node, hooks ...func(*Node)) *Node {
	helper.DebugPrint(""interfaceResetter.Run"", ""\t\t...."", head.debugText(5))
	defer helper.DebugPrint(""interfaceResetter.Run.Returned"")

	var (
		skipAll bool
		jumpTo  *Node
	)

	head = head.findNext([]kind.Kind{kind.CurlyBracketLeft}, findNodeOption{}, hooks...) // set head to '{'

	return head.IterNext(func(n *Node) bool {
		handleHook(n, hooks...)
		if skipAll {
			return true
		}

		if jumpTo != nil {
			if n != jumpTo {
				return true
			}
			jumpTo = nil
		}
		switch n.Kind() {
		case kind.CurlyBracketRight: // return kind
			return false
		case kind.Tab, kind.Comment, kind.NewLine, kind.Space, kind.CurlyBracketLeft:
			return true
		default:
			if r.isThisLineFunction(n) {
				jumpTo = funcResetter{
					isInterfaceDefinition: true,
				}.Run(n, hooks...)
				skipAll = jumpTo == nil
				return true
			}

			if n.Kind() == kind.Raw {
				n.SetKind(kind.TypeName)
			}

			jumpTo = n.findNext([]kind.Kind{kind.NewLine, kind.CurlyBracketRight}, findNodeOption{
				IsOutsideParenthesis:   true,
				IsOutsideCurlyBracket:  true,
				IsOutsideSquareBracket: true,
			}, hooks...)
			skipAll = jumpTo == nil
			return true
		}
	})
}

func (interfaceResetter) isThisLineFunction(head *Node) bool {
	result := false
	_ = head.IterNext(func(n *Node) bool {
		switch n.Kind() {
		case kind.ParenthesisLeft:
			result = true
			return false
		case kind.NewLine:
			return false
		default:
			return true
		}
	})
	return result
}

// structResetter starts with 'struct'
//
// return key kind: '}'
type structResetter struct{}

func (r structResetter) Run(head *Node, hooks ...func(*Node)) *Node {
	helper.DebugPrint(""structResetter.Run"", ""\t\t...."", head.debugText(5))
	defer helper.DebugPrint(""structResetter.Run.Returned"")

	var (
		skipAll bool
		jumpTo  *Node
	)

	head = head.findNext([]kind.Kind{kind.CurlyBracketLeft}, findNodeOption{}, hooks...).Next() // skip first of head to '{'

	return head.IterNext(func(n *Node) bool {
		handleHook(n, hooks...)
		if skipAll {
			return true
		}

		if jumpTo != nil {
			if n != jumpTo {
				return true
			}
			jumpTo = nil
		}

		switch n.Kind() {
		case kind.CurlyBracketRight: // return kind
			return false
		case kind.Comment, kind.CurlyBracketLeft, kind.NewLine:
			return true
		default:
			jumpTo = r.handleStructRow(n, hooks...)
			skipAll = jumpTo == nil
			return true
		}
	})
}

// handleStructRow returns key kind: '\n'
//
//   - a, b, c int
//
//   - a, b, c func(int) (int, error)
//
//   - a, b, c struct{}
func (r structResetter) handleStructRow(head *Node, hooks ...func(*Node)) *Node {
	helper.DebugPrint(""funcResetter.handleStructRow"", ""\t\t...."", head.debugText(5))
	defer helper.DebugPrint(""funcResetter.handleStructRow.Returned"")

	var (
		skipAll bool
		jumpTo  *Node

		paramNameCount = r.getRowNameCount(head)
	)

	return head.IterNext(func(n *Node) bool {
		handleHook(n, hooks...)
		if skipAll {
			return true
		}

		if jumpTo != nil {
			if n != jumpTo {
				return true
			}
			jumpTo = nil
		}

		switch n.Kind() {
		case kind.NewLine: // return kind
			return false
		case kind.Comment, kind.NewLine, kind.Tab, kind.Space, kind.Comma:
			return true
		case kind.Raw:
			if paramNameCount != 0 {
				paramNameCount--
				n.SetKind(kind.ParamName)
				return true
			}

			n.SetKind(kind.ParamType)
			// jumpTo = paramResetter{resetKind: kind.ParamType, returnKinds: []kind.Kind{kind.NewLine}}.Run(n, hooks...)
			// skipAll = jumpTo == nil
			return true
		case kind.Func:
			jumpTo = funcResetter{isParameter: true}.Run(n, func(n *Node) {
				if n.Kind() == kind.Raw {
					n.SetKind(kind.ParamType)
				}
			})
			skipAll = jumpTo == nil
			return true
		default:
			// jumpTo = paramResetter{resetKind: kind.ParamType, returnKinds: []kind.Kind{kind.NewLine}}.Run(n, hooks...)
			// skipAll = jumpTo == nil
			return true
		}
	})
}

func (r structResetter) getRowNameCount(head *Node) int {
	var (
		rawCount           int
		hasComma           bool
		hasSpaceOrAfterRaw bool
		cacheNameCount     int
		nameCount          int
	)

	_ = head.IterNext(func(n *Node) bool {
		switch n.Kind() {
		case kind.NewLine: // return kind
			if hasSpaceOrAfterRaw {
				nameCount = cacheNameCount
			}
			return false
		case kind.Comment, kind.Tab:
			return true
		case kind.Raw:
			rawCount++
			return true
		case kind.Space:
			if rawCount != 0 {
				if !hasComma && cacheNameCount == 0 {
					cacheNameCount++
				}
				hasSpaceOrAfterRaw = true
			}
			return true
		case kind.Comma:
			if cacheNameCount == 0 {
				cacheNameCount++
			}
			hasComma = true
			cacheNameCount++
			nameCount = cacheNameCount
			return true
		default:
			if hasSpaceOrAfterRaw {
				nameCount = cacheNameCount
			}
			return false
		}
	})

	return nameCount
}
".
Proof. vm_compute. reflexivity. Qed.

(** /repo/node.go *)
Definition repo_node : list item := [(DOther $"package" (shown $" goast"), 1);
  (DOther $"import" (shown $" (
	""fmt""
	""slices""
	""strings""

	""github.com/yanun0323/goast/charset""
	""github.com/yanun0323/goast/helper""
	""github.com/yanun0323/goast/kind""
)"), 1);
  (DBlockComment $"/*
Node stands for any element in go language.
*/", 1);
  (DLineComment $" NewNode creates a new Node.", 0);
  (DFunc None $"NewNode" [] (Flat (PCons (Some $"line") (TWord $"int") (PCons (Some $"text") (TWord $"string") (PCons (Some $"kinds") (TWord $"...kind.Kind") PNil)))) (ROne (TWord $"*Node")) (Some (shown $"
	if len(kinds) != 0 {
		return &Node{line: line, kind: kinds[0], text: text}
	}

	return &Node{line: line, kind: kind.New(text), text: text}
")) None, 1);
  (DLineComment $" NewNodes creates a chain of nodes.", 0);
  (DFunc None $"NewNodes" [] (Flat (PCons (Some $"startLine") (TWord $"int") (PCons (Some $"texts") (TWord $"...string") PNil))) (ROne (TWord $"*Node")) (Some (shown $"
	if len(texts) == 0 {
		return nil
	}

	head := NewNode(startLine, texts[0])
	cur := head
	for _, text := range texts[1:] {
		cur.InsertNext(NewNode(startLine, text))
		cur = cur.Next()
		startLine += strings.Count(text, ""\n"")
	}

	return head
")) None, 1);
  (DLineComment $" Node represents a structure.", 0);
  (DStruct $"Node" [] [FieldRow $"line" [] 0 (TWord $"int") PNil None None; FieldRow $"kind" [] 0 (TWord $"kind.Kind") PNil None None; FieldRow $"text" [] 0 (TWord $"string") PNil None None; BlankRow; FieldRow $"prev" [] 0 (TWord $"*Node") PNil None None; FieldRow $"next" [] 0 (TWord $"*Node") PNil None None] None, 1);
  (DLineComment $" Copy copies node.", 0);
  (DLineComment $"", 0);
  (DLineComment $" If 'copyRelativeNode' equals true, then copy relative nodes too (prev and next).", 0);
  (DLineComment $" Otherwise only copies absolute node itself without prev and next.", 0);
  (DFunc (Some ((Some $"n"), (TWord $"*Node"))) $"Copy" [] (Flat (PCons (Some $"copyRelativeNode") (TWord $"...bool") PNil)) (ROne (TWord $"*Node")) (Some (shown $"
	if n == nil {
		return nil
	}

	if len(copyRelativeNode) != 0 && copyRelativeNode[0] {
		return n.deepCopy(nil, nil)
	}

	return &Node{
		line: n.line,
		kind: n.kind,
		text: n.text,
	}
")) None, 1);
  (DFunc (Some ((Some $"n"), (TWord $"*Node"))) $"deepCopy" [] (Flat (PCons None (TWord $"prev") (PCons (Some $"next") (TWord $"*Node") PNil))) (ROne (TWord $"*Node")) (Some (shown $"
	if n == nil {
		return nil
	}

	nn := &Node{
		line: n.line,
		kind: n.kind,
		text: n.text,
	}

	if prev == nil {
		prev = n.Prev().deepCopy(nil, nn)
	}

	if next == nil {
		next = n.Next().deepCopy(nn, nil)
	}

	nn.prev = prev
	nn.next = next

	return nn
")) None, 1);
  (DFunc (Some ((Some $"n"), (TWord $"*Node"))) $"loop" [] (Flat (PCons (Some $"iter") (TFuncR (PCons None (TWord $"*Node") PNil) (TWord $"*Node")) (PCons (Some $"fn") (TFuncR (PCons None (TWord $"*Node") PNil) (TWord $"bool")) PNil))) (ROne (TWord $"*Node")) (Some (shown $"
	for nn := n; nn != nil; nn = iter(nn) {
		if !fn(nn) {
			return nn
		}
	}

	return nil
")) None, 1);
  (DLineComment $" IterPrev iterates over the previous nodes of the node.", 0);
  (DLineComment $"", 0);
  (DLineComment $" return the node that the iteration stopped at.", 0);
  (DFunc (Some ((Some $"n"), (TWord $"*Node"))) $"IterPrev" [] (Flat (PCons (Some $"fn") (TFuncR (PCons None (TWord $"*Node") PNil) (TWord $"bool")) PNil)) (ROne (TWord $"*Node")) (Some (shown $"
	return n.loop(func(nn *Node) *Node { return nn.Prev() }, fn)
")) None, 1);
  (DLineComment $" IterNext iterates over the next nodes of the node.", 0);
  (DLineComment $"", 0);
  (DLineComment $" return the node that the iteration stopped at.", 0);
  (DFunc (Some ((Some $"n"), (TWord $"*Node"))) $"IterNext" [] (Flat (PCons (Some $"fn") (TFuncR (PCons None (TWord $"*Node") PNil) (TWord $"bool")) PNil)) (ROne (TWord $"*Node")) (Some (shown $"
	return n.loop(func(nn *Node) *Node { return nn.Next() }, fn)
")) None, 1);
  (DLineComment $" Prev returns the previous node of the node.", 0);
  (DFunc (Some ((Some $"n"), (TWord $"*Node"))) $"Prev" [] (Flat PNil) (ROne (TWord $"*Node")) (Some (shown $"
	if n != nil {
		return n.prev
	}

	return nil
")) None, 1);
  (DLineComment $" Next returns the next node of the node.", 0);
  (DFunc (Some ((Some $"n"), (TWord $"*Node"))) $"Next" [] (Flat PNil) (ROne (TWord $"*Node")) (Some (shown $"
	if n != nil {
		return n.next
	}

	return nil
")) None, 1);
  (DLineComment $" First returns the first node of the node.", 0);
  (DFunc (Some ((Some $"n"), (TWord $"*Node"))) $"First" [] (Flat PNil) (ROne (TWord $"*Node")) (Some (shown $"
	return n.IterPrev(func(n *Node) bool { return n.Prev() != nil })
")) None, 1);
  (DLineComment $" Last returns the last node of the node.", 0);
  (DFunc (Some ((Some $"n"), (TWord $"*Node"))) $"Last" [] (Flat PNil) (ROne (TWord $"*Node")) (Some (shown $"
	return n.IterNext(func(n *Node) bool { return n.Next() != nil })
")) None, 1);
  (DLineComment $" InsertPrev inserts incoming node into current node's before,", 0);
  (DLineComment $" then returns old previous/next node of incoming node.", 0);
  (DFunc (Some ((Some $"n"), (TWord $"*Node"))) $"InsertPrev" [] (Flat (PCons (Some $"nn") (TWord $"*Node") PNil)) (RMany (Flat (PCons (Some $"insertedOldPrev") (TWord $"*Node") (PCons (Some $"insertedOldNext") (TWord $"*Node") PNil)))) (Some (shown $"
	if n == nn || n.Prev() == nn {
		return
	}

	oldPrev, oldNext := nn.Prev(), nn.Next()
	nPrev := n.Prev()

	n.setPrev(nn)
	nn.setNext(n)

	nn.setPrev(nPrev)
	nPrev.setNext(nn)

	oldPrev.setNext(nil)
	oldNext.setPrev(nil)

	return oldPrev, oldNext
")) None, 1);
  (DLineComment $" InsertNext inserts incoming node into current node's after,", 0);
  (DLineComment $" then returns old previous/next node of incoming node.", 0);
  (DFunc (Some ((Some $"n"), (TWord $"*Node"))) $"InsertNext" [] (Flat (PCons (Some $"nn") (TWord $"*Node") PNil)) (RMany (Flat (PCons (Some $"insertedOldPrev") (TWord $"*Node") (PCons (Some $"insertedOldNext") (TWord $"*Node") PNil)))) (Some (shown $"
	if n == nn || n.Next() == nn {
		return
	}

	oldPrev, oldNext := nn.Prev(), nn.Next()
	nNext := n.Next()

	n.setNext(nn)
	nn.setPrev(n)

	nn.setNext(nNext)
	nNext.setPrev(nn)

	oldPrev.setNext(nil)
	oldNext.setPrev(nil)

	return oldPrev, oldNext
")) None, 1);
  (DLineComment $" ReplacePrev replaces incoming node into current node's before,", 0);
  (DLineComment $" then returns the old previous node of current node and", 0);
  (DLineComment $" the old next node of incoming node.", 0);
  (DFunc (Some ((Some $"n"), (TWord $"*Node"))) $"ReplacePrev" [] (Flat (PCons (Some $"nn") (TWord $"*Node") PNil)) (RMany (Flat (PCons (Some $"currentOldPrev") (TWord $"*Node") (PCons (Some $"replacedOldNext") (TWord $"*Node") PNil)))) (Some (shown $"
	if n == nn || n.Prev() == nn {
		return
	}

	oldPrev, oldNext := n.Prev(), nn.Next()

	n.setPrev(nn)
	nn.setNext(n)

	oldPrev.setNext(nil)
	oldNext.setPrev(nil)

	return oldPrev, oldNext
")) None, 1);
  (DLineComment $" ReplaceNext replaces incoming node into current node's after,", 0);
  (DLineComment $" then returns the old previous node of incoming node and", 0);
  (DLineComment $" the old next node of current node.", 0);
  (DFunc (Some ((Some $"n"), (TWord $"*Node"))) $"ReplaceNext" [] (Flat (PCons (Some $"nn") (TWord $"*Node") PNil)) (RMany (Flat (PCons (Some $"replacedOldPrev") (TWord $"*Node") (PCons (Some $"currentOldNext") (TWord $"*Node") PNil)))) (Some (shown $"
	if n == nn || n.Next() == nn {
		return
	}

	oldPrev, oldNext := nn.Prev(), n.Next()

	n.setNext(nn)
	nn.setPrev(n)

	oldPrev.setNext(nil)
	oldNext.setPrev(nil)

	return oldPrev, oldNext
")) None, 1);
  (DLineComment $" TakePrev takes the single node before current node, and connects leftover node.", 0);
  (DFunc (Some ((Some $"n"), (TWord $"*Node"))) $"TakePrev" [] (Flat PNil) (ROne (TWord $"*Node")) (Some (shown $"
	removed := n.Prev()
	newPrev := removed.Prev()

	n.setPrev(newPrev)
	newPrev.setNext(n)

	removed.setNext(nil)
	removed.setPrev(nil)

	return removed
")) None, 1);
  (DLineComment $" TakeNext takes the single node after current node, and connects leftover node.", 0);
  (DFunc (Some ((Some $"n"), (TWord $"*Node"))) $"TakeNext" [] (Flat PNil) (ROne (TWord $"*Node")) (Some (shown $"
	removed := n.Next()
	newNext := removed.Next()

	n.setNext(newNext)
	newNext.setPrev(n)

	removed.setNext(nil)
	removed.setPrev(nil)

	return removed
")) None, 1);
  (DLineComment $" RemovePrev removes node previous current node, and returns removed node with it's all previous node.", 0);
  (DFunc (Some ((Some $"n"), (TWord $"*Node"))) $"RemovePrev" [] (Flat PNil) (ROne (TWord $"*Node")) (Some (shown $"
	removed := n.Prev()
	n.setPrev(nil)
	removed.setNext(nil)

	return removed
")) None, 1);
  (DLineComment $" RemoveNext removes node next current node, and returns removed node with it's all next node.", 0);
  (DFunc (Some ((Some $"n"), (TWord $"*Node"))) $"RemoveNext" [] (Flat PNil) (ROne (TWord $"*Node")) (Some (shown $"
	removed := n.Next()
	n.setNext(nil)
	removed.setPrev(nil)

	return removed
")) None, 1);
  (DLineComment $" CombinePrev combines all values of incoming nodes into current node,", 0);
  (DLineComment $" and returns new node.", 0);
  (DLineComment $"", 0);
  (DLineComment $" e.g. (nn3 - nn2 - nn1 - n)", 0);
  (DFunc (Some ((Some $"n"), (TWord $"*Node"))) $"CombinePrev" [] (Flat (PCons (Some $"k") (TWord $"kind.Kind") (PCons (Some $"nns") (TWord $"...*Node") PNil))) (ROne (TWord $"*Node")) (Some (shown $"
	n.SetKind(k)

	if len(nns) == 0 {
		return n
	}

	if n == nil {
		n = nns[0]
		nns = nns[1:]
	}

	buf := make([]string, 0, len(nns)+1)
	buf = append(buf, n.Text())
	for _, nn := range nns {
		if nn == nil || n == nn {
			continue
		}

		buf = append(buf, nn.Text())
		// make node recyclable to gc
		nn.Isolate()
	}

	slices.Reverse(buf)

	n.text = strings.Join(buf, """")

	return n
")) None, 1);
  (DLineComment $" CombineNext combines all values of incoming nodes into current node,", 0);
  (DLineComment $" and returns new node.", 0);
  (DLineComment $"", 0);
  (DLineComment $" e.g. (n - nn1 - nn2 - nn3)", 0);
  (DFunc (Some ((Some $"n"), (TWord $"*Node"))) $"CombineNext" [] (Flat (PCons (Some $"k") (TWord $"kind.Kind") (PCons (Some $"nns") (TWord $"...*Node") PNil))) (ROne (TWord $"*Node")) (Some (shown $"
	n.SetKind(k)

	if len(nns) == 0 {
		return n
	}

	if n == nil {
		n = nns[0]
		nns = nns[1:]
	}

	buf := make([]string, 0, len(nns)+1)
	buf = append(buf, n.Text())
	for _, nn := range nns {
		if nn == nil || n == nn {
			continue
		}

		buf = append(buf, nn.Text())
		// make node recyclable to gc
		nn.Isolate()
	}

	n.text = strings.Join(buf, """")

	return n
")) None, 1);
  (DLineComment $" Isolated disconnects current node from others.", 0);
  (DFunc (Some ((Some $"n"), (TWord $"*Node"))) $"Isolate" [] (Flat PNil) RNone (Some (shown $"
	n.Prev().setNext(nil)
	n.Next().setPrev(nil)

	n.setPrev(nil)
	n.setNext(nil)
")) None, 1);
  (DLineComment $" Line returns the line number of the node.", 0);
  (DFunc (Some ((Some $"n"), (TWord $"*Node"))) $"Line" [] (Flat PNil) (ROne (TWord $"int")) (Some (shown $"
	if n == nil {
		return -2
	}

	return n.line
")) None, 1);
  (DLineComment $" Kind returns the kind of the node.", 0);
  (DFunc (Some ((Some $"n"), (TWord $"*Node"))) $"Kind" [] (Flat PNil) (ROne (TWord $"kind.Kind")) (Some (shown $"
	if n == nil {
		return kind.None
	}

	return n.kind
")) None, 1);
  (DLineComment $" SetKind sets the kind of the node.", 0);
  (DFunc (Some ((Some $"n"), (TWord $"*Node"))) $"SetKind" [] (Flat (PCons (Some $"k") (TWord $"kind.Kind") PNil)) RNone (Some (shown $"
	if n != nil {
		n.kind = k
	}
")) None, 1);
  (DLineComment $" Text returns the raw text of the node.", 0);
  (DFunc (Some ((Some $"n"), (TWord $"*Node"))) $"Text" [] (Flat PNil) (ROne (TWord $"string")) (Some (shown $"
	if n == nil {
		return """"
	}
	return n.text
")) None, 1);
  (DFunc (Some ((Some $"n"), (TWord $"*Node"))) $"debugText" [] (Flat (PCons (Some $"nextCount") (TWord $"...uint") PNil)) (ROne (TWord $"string")) (Some (shown $"
	if n == nil {
		return """"
	}

	var (
		buf   strings.Builder
		count uint = 1
	)

	if len(nextCount) != 0 {
		count += nextCount[0]
	}

	n.IterNext(func(n *Node) bool {
		buf.WriteString(helper.TidyText(n.Text()))
		count--
		return count != 0
	})
	return buf.String()
")) None, 1);
  (DLineComment $" SetText sets the raw text of the node.", 0);
  (DFunc (Some ((Some $"n"), (TWord $"*Node"))) $"SetText" [] (Flat (PCons (Some $"text") (TWord $"string") PNil)) RNone (Some (shown $"
	if n == nil {
		return
	}
	n.text = text
")) None, 1);
  (DLineComment $" Description returns node description.", 0);
  (DLineComment $"", 0);
  (DLineComment $" It returns ""<nil>"" if node is nil.", 0);
  (DFunc (Some ((Some $"n"), (TWord $"*Node"))) $"Description" [] (Flat PNil) (ROne (TWord $"string")) (Some (shown $"
	if n == nil {
		return ""<nil>""
	}

	return fmt.Sprintf(""%d .... %s .... *Node.%s"", n.Line()+1, helper.TidyText(n.Text()), n.Kind().String())
")) None, 1);
  (DLineComment $" Print prints the description of the node.", 0);
  (DFunc (Some ((Some $"n"), (TWord $"*Node"))) $"Print" [] (Flat PNil) RNone (Some (shown $"
	println(""\t"", n.Description())
")) None, 1);
  (DFunc (Some ((Some $"n"), (TWord $"*Node"))) $"setPrev" [] (Flat (PCons (Some $"nn") (TWord $"*Node") PNil)) RNone (Some (shown $"
	if n == nn || n == nil {
		return
	}

	// TODO: how to prevent leak (no gc)
	if n.prev != nil {
		n.prev.next = nil
	}

	n.prev = nn
")) None, 1);
  (DFunc (Some ((Some $"n"), (TWord $"*Node"))) $"setNext" [] (Flat (PCons (Some $"nn") (TWord $"*Node") PNil)) RNone (Some (shown $"
	if n == nn || n == nil {
		return
	}

	// TODO: how to prevent leak (no gc)
	if n.next != nil {
		n.next.prev = nil
	}

	n.next = nn
")) None, 1);
  (DLineComment $" skipNestNext helper", 0);
  (DFunc (Some ((Some $"n"), (TWord $"*Node"))) $"skipNestNext" [] (Calls (PCons None (TWord $"nestLeft") (PCons (Some $"nestRight") (TWord $"kind.Kind") PNil)) (Some $"hooks") $"...func" (PCons None (TWord $"*Node") PNil) PNil) (ROne (TWord $"*Node")) (Some (shown $"
	count := 1
	if n.Kind() == nestLeft {
		handleHook(n, hooks...)
		n = n.findNext([]kind.Kind{nestLeft}, findNodeOption{}, hooks...).Next() // skip first nestLeft
	}

	return n.IterNext(func(n *Node) bool {
		handleHook(n, hooks...)

		switch n.Kind() {
		case nestLeft:
			count++
			return true
		case nestRight:
			count--
			return count != 0
		default:
			return true
		}
	})
")) None, 1);
  (DLineComment $" findNext helper", 0);
  (DFunc (Some ((Some $"n"), (TWord $"*Node"))) $"findNext" [] (CallRows 0 [((PCons (Some $"target") (TSlice (TWord $"kind.Kind")) PNil), None); ((PCons (Some $"opt") (TWord $"findNodeOption") PNil), None)] (Some $"hooks") $"...func" (PCons None (TWord $"*Node") PNil) PNil None) (ROne (TWord $"*Node")) (Some (shown $"
	var (
		parenthesisLeftCount   int
		curlyBracketLeftCount  int
		squareBracketLeftCount int

		targetKindSet = charset.New(target...)
	)

	return n.IterNext(func(n *Node) bool {
		handleHook(n, hooks...)
		switch n.Kind() {
		case kind.ParenthesisLeft:
			parenthesisLeftCount++
		case kind.CurlyBracketLeft:
			curlyBracketLeftCount++
		case kind.SquareBracketLeft:
			squareBracketLeftCount++
		case kind.ParenthesisRight:
			parenthesisLeftCount--
		case kind.CurlyBracketRight:
			curlyBracketLeftCount--
		case kind.SquareBracketRight:
			squareBracketLeftCount--
		}

		if opt.IsInsideParenthesis && parenthesisLeftCount == 0 {
			return true
		}

		if opt.IsInsideCurlyBracket && curlyBracketLeftCount == 0 {
			return true
		}

		if opt.IsInsideSquareBracket && squareBracketLeftCount == 0 {
			return true
		}

		if opt.IsOutsideParenthesis && parenthesisLeftCount != 0 {
			return true
		}

		if opt.IsOutsideCurlyBracket && curlyBracketLeftCount != 0 {
			return true
		}

		if opt.IsOutsideSquareBracket && squareBracketLeftCount != 0 {
			return true
		}

		if targetKindSet.Contain(n.Kind()) {
			return opt.TargetReverse
		}

		return !opt.TargetReverse
	})
")) None, 1);
  (DStruct $"findNodeOption" [] [FieldRow $"TargetReverse" [] 9 (TWord $"bool") PNil None None; FieldRow $"IsInsideParenthesis" [] 3 (TWord $"bool") PNil None None; FieldRow $"IsInsideCurlyBracket" [] 2 (TWord $"bool") PNil None None; FieldRow $"IsInsideSquareBracket" [] 1 (TWord $"bool") PNil None None; FieldRow $"IsOutsideParenthesis" [] 2 (TWord $"bool") PNil None None; FieldRow $"IsOutsideCurlyBracket" [] 1 (TWord $"bool") PNil None None; FieldRow $"IsOutsideSquareBracket" [] 0 (TWord $"bool") PNil None None] None, 0)].
Example C75_repo_node_ok : file_ok repo_node.
Proof. apply (forallb_ok (fun i => decl_okb (fst i))); [intros [d k]; apply decl_okb_ok|]. vm_compute. reflexivity. Qed.
Example C75_repo_node_text : file_text repo_node = $"package goast

import (
	""fmt""
	""slices""
	""strings""

	""github.com/yanun0323/goast/charset""
	""github.com/yanun0323/goast/helper""
	""github.com/yanun0323/goast/kind""
)

/*
Node stands for any element in go language.
*/

// NewNode creates a new Node.
func NewNode(line int, text string, kinds ...kind.Kind) *Node {
	if len(kinds) != 0 {
		return &Node{line: line, kind: kinds[0], text: text}
	}

	return &Node{line: line, kind: kind.New(text), text: text}
}

// NewNodes creates a chain of nodes.
func NewNodes(startLine int, texts ...string) *Node {
	if len(texts) == 0 {
		return nil
	}

	head := NewNode(startLine, texts[0])
	cur := head
	for _, text := range texts[1:] {
		cur.InsertNext(NewNode(startLine, text))
		cur = cur.Next()
		startLine += strings.Count(text, ""\n"")
	}

	return head
}

// Node represents a structure.
type Node struct {
	line int
	kind kind.Kind
	text string

	prev *Node
	next *Node
}

// Copy copies node.
//
// If 'copyRelativeNode' equals true, then copy relative nodes too (prev and next).
// Otherwise only copies absolute node itself without prev and next.
func (n *Node) Copy(copyRelativeNode ...bool) *Node {
	if n == nil {
		return nil
	}

	if len(copyRelativeNode) != 0 && copyRelativeNode[0] {
		return n.deepCopy(nil, nil)
	}

	return &Node{
		line: n.line,
		kind: n.kind,
		text: n.text,
	}
}

func (n *Node) deepCopy(prev, next *Node) *Node {
	if n == nil {
		return nil
	}

	nn := &Node{
		line: n.line,
		kind: n.kind,
		text: n.text,
	}

	if prev == nil {
		prev = n.Prev().deepCopy(nil, nn)
	}

	if next == nil {
		next = n.Next().deepCopy(nn, nil)
	}

	nn.prev = prev
	nn.next = next

	return nn
}

func (n *Node) loop(iter func(*Node) *Node, fn func(*Node) bool) *Node {
	for nn := n; nn != nil; nn = iter(nn) {
		if !fn(nn) {
			return nn
		}
	}

	return nil
}

// IterPrev iterates over the previous nodes of the node.
//
// return the node that the iteration stopped at.
func (n *Node) IterPrev(fn func(*Node) bool) *Node {
	return n.loop(func(nn *Node) *Node { return nn.Prev() }, fn)
}

// IterNext iterates over the next nodes of the node.
//
// return the node that the iteration stopped at.
func (n *Node) IterNext(fn func(*Node) bool) *Node {
	return n.loop(func(nn *Node) *Node { return nn.Next() }, fn)
}

// Prev returns the previous node of the node.
func (n *Node) Prev() *Node {
	if n != nil {
		return n.prev
	}

	return nil
}

// Next returns the next node of the node.
func (n *Node) Next() *Node {
	if n != nil {
		return n.next
	}

	return nil
}

// First returns the first node of the node.
func (n *Node) First() *Node {
	return n.IterPrev(func(n *Node) bool { return n.Prev() != nil })
}

// Last returns the last node of the node.
func (n *Node) Last() *Node {
	return n.IterNext(func(n *Node) bool { return n.Next() != nil })
}

// InsertPrev inserts incoming node into current node's before,
// then returns old previous/next node of incoming node.
func (n *Node) InsertPrev(nn *Node) (insertedOldPrev *Node, insertedOldNext *Node) {
	if n == nn || n.Prev() == nn {
		return
	}

	oldPrev, oldNext := nn.Prev(), nn.Next()
	nPrev := n.Prev()

	n.setPrev(nn)
	nn.setNext(n)

	nn.setPrev(nPrev)
	nPrev.setNext(nn)

	oldPrev.setNext(nil)
	oldNext.setPrev(nil)

	return oldPrev, oldNext
}

// InsertNext inserts incoming node into current node's after,
// then returns old previous/next node of incoming node.
func (n *Node) InsertNext(nn *Node) (insertedOldPrev *Node, insertedOldNext *Node) {
	if n == nn || n.Next() == nn {
		return
	}

	oldPrev, oldNext := nn.Prev(), nn.Next()
	nNext := n.Next()

	n.setNext(nn)
	nn.setPrev(n)

	nn.setNext(nNext)
	nNext.setPrev(nn)

	oldPrev.setNext(nil)
	oldNext.setPrev(nil)

	return oldPrev, oldNext
}

// ReplacePrev replaces incoming node into current node's before,
// then returns the old previous node of current node and
// the old next node of incoming node.
func (n *Node) ReplacePrev(nn *Node) (currentOldPrev *Node, replacedOldNext *Node) {
	if n == nn || n.Prev() == nn {
		return
	}

	oldPrev, oldNext := n.Prev(), nn.Next()

	n.setPrev(nn)
	nn.setNext(n)

	oldPrev.setNext(nil)
	oldNext.setPrev(nil)

	return oldPrev, oldNext
}

// ReplaceNext replaces incoming node into current node's after,
// then returns the old previous node of incoming node and
// the old next node of current node.
func (n *Node) ReplaceNext(nn *Node) (replacedOldPrev *Node, currentOldNext *Node) {
	if n == nn || n.Next() == nn {
		return
	}

	oldPrev, oldNext := nn.Prev(), n.Next()

	n.setNext(nn)
	nn.setPrev(n)

	oldPrev.setNext(nil)
	oldNext.setPrev(nil)

	return oldPrev, oldNext
}

// TakePrev takes the single node before current node, and connects leftover node.
func (n *Node) TakePrev() *Node {
	removed := n.Prev()
	newPrev := removed.Prev()

	n.setPrev(newPrev)
	newPrev.setNext(n)

	removed.setNext(nil)
	removed.setPrev(nil)

	return removed
}

// TakeNext takes the single node after current node, and connects leftover node.
func (n *Node) TakeNext() *Node {
	removed := n.Next()
	newNext := removed.Next()

	n.setNext(newNext)
	newNext.setPrev(n)

	removed.setNext(nil)
	removed.setPrev(nil)

	return removed
}

// RemovePrev removes node previous current node, and returns removed node with it's all previous node.
func (n *Node) RemovePrev() *Node {
	removed := n.Prev()
	n.setPrev(nil)
	removed.setNext(nil)

	return removed
}

// RemoveNext removes node next current node, and returns removed node with it's all next node.
func (n *Node) RemoveNext() *Node {
	removed := n.Next()
	n.setNext(nil)
	removed.setPrev(nil)

	return removed
}

// CombinePrev combines all values of incoming nodes into current node,
// and returns new node.
//
// e.g. (nn3 - nn2 - nn1 - n)
func (n *Node) CombinePrev(k kind.Kind, nns ...*Node) *Node {
	n.SetKind(k)

	if len(nns) == 0 {
		return n
	}

	if n == nil {
		n = nns[0]
		nns = nns[1:]
	}

	buf := make([]string, 0, len(nns)+1)
	buf = append(buf, n.Text())
	for _, nn := range nns {
		if nn == nil || n == nn {
			continue
		}

		buf = append(buf, nn.Text())
		// make node recyclable to gc
		nn.Isolate()
	}

	slices.Reverse(buf)

	n.text = strings.Join(buf, """")

	return n
}

// CombineNext combines all values of incoming nodes into current node,
// and returns new node.
//
// e.g. (n - nn1 - nn2 - nn3)
func (n *Node) CombineNext(k kind.Kind, nns ...*Node) *Node {
	n.SetKind(k)

	if len(nns) == 0 {
		return n
	}

	if n == nil {
		n = nns[0]
		nns = nns[1:]
	}

	buf := make([]string, 0, len(nns)+1)
	buf = append(buf, n.Text())
	for _, nn := range nns {
		if nn == nil || n == nn {
			continue
		}

		buf = append(buf, nn.Text())
		// make node recyclable to gc
		nn.Isolate()
	}

	n.text = strings.Join(buf, """")

	return n
}

// Isolated disconnects current node from others.
func (n *Node) Isolate() {
	n.Prev().setNext(nil)
	n.Next().setPrev(nil)

	n.setPrev(nil)
	n.setNext(nil)
}

// Line returns the line number of the node.
func (n *Node) Line() int {
	if n == nil {
		return -2
	}

	return n.line
}

// Kind returns the kind of the node.
func (n *Node) Kind() kind.Kind {
	if n == nil {
		return kind.None
	}

	return n.kind
}

// SetKind sets the kind of the node.
func (n *Node) SetKind(k kind.Kind) {
	if n != nil {
		n.kind = k
	}
}

// Text returns the raw text of the node.
func (n *Node) Text() string {
	if n == nil {
		return """"
	}
	return n.text
}

func (n *Node) debugText(nextCount ...uint) string {
	if n == nil {
		return """"
	}

	var (
		buf   strings.Builder
		count uint = 1
	)

	if len(nextCount) != 0 {
		count += nextCount[0]
	}

	n.IterNext(func(n *Node) bool {
		buf.WriteString(helper.TidyText(n.Text()))
		count--
		return count != 0
	})
	return buf.String()
}

// SetText sets the raw text of the node.
func (n *Node) SetText(text string) {
	if n == nil {
		return
	}
	n.text = text
}

// Description returns node description.
//
// It returns ""<nil>"" if node is nil.
func (n *Node) Description() string {
	if n == nil {
		return ""<nil>""
	}

	return fmt.Sprintf(""%d .... %s .... *Node.%s"", n.Line()+1, helper.TidyText(n.Text()), n.Kind().String())
}

// Print prints the description of the node.
func (n *Node) Print() {
	println(""\t"", n.Description())
}

func (n *Node) setPrev(nn *Node) {
	if n == nn || n == nil {
		return
	}

	// TODO: how to prevent leak (no gc)
	if n.prev != nil {
		n.prev.next = nil
	}

	n.prev = nn
}

func (n *Node) setNext(nn *Node) {
	if n == nn || n == nil {
		return
	}

	// TODO: how to prevent leak (no gc)
	if n.next != nil {
		n.next.prev = nil
	}

	n.next = nn
}

// skipNestNext helper
func (n *Node) skipNestNext(nestLeft, nestRight kind.Kind, hooks ...func(*Node)) *Node {
	count := 1
	if n.Kind() == nestLeft {
		handleHook(n, hooks...)
		n = n.findNext([]kind.Kind{nestLeft}, findNodeOption{}, hooks...).Next() // skip first nestLeft
	}

	return n.IterNext(func(n *Node) bool {
		handleHook(n, hooks...)

		switch n.Kind() {
		case nestLeft:
			count++
			return true
		case nestRight:
			count--
			return count != 0
		default:
			return true
		}
	})
}

// findNext helper
func (n *Node) findNext(
	target []kind.Kind,
	opt findNodeOption,
	hooks ...func(*Node),
) *Node {
	var (
		parenthesisLeftCount   int
		curlyBracketLeftCount  int
		squareBracketLeftCount int

		targetKindSet = charset.New(target...)
	)

	return n.IterNext(func(n *Node) bool {
		handleHook(n, hooks...)
		switch n.Kind() {
		case kind.ParenthesisLeft:
			parenthesisLeftCount++
		case kind.CurlyBracketLeft:
			curlyBracketLeftCount++
		case kind.SquareBracketLeft:
			squareBracketLeftCount++
		case kind.ParenthesisRight:
			parenthesisLeftCount--
		case kind.CurlyBracketRight:
			curlyBracketLeftCount--
		case kind.SquareBracketRight:
			squareBracketLeftCount--
		}

		if opt.IsInsideParenthesis && parenthesisLeftCount == 0 {
			return true
		}

		if opt.IsInsideCurlyBracket && curlyBracketLeftCount == 0 {
			return true
		}

		if opt.IsInsideSquareBracket && squareBracketLeftCount == 0 {
			return true
		}

		if opt.IsOutsideParenthesis && parenthesisLeftCount != 0 {
			return true
		}

		if opt.IsOutsideCurlyBracket && curlyBracketLeftCount != 0 {
			return true
		}

		if opt.IsOutsideSquareBracket && squareBracketLeftCount != 0 {
			return true
		}

		if targetKindSet.Contain(n.Kind()) {
			return opt.TargetReverse
		}

		return !opt.TargetReverse
	})
}

type findNodeOption struct {
	TargetReverse          bool
	IsInsideParenthesis    bool
	IsInsideCurlyBracket   bool
	IsInsideSquareBracket  bool
	IsOutsideParenthesis   bool
	IsOutsideCurlyBracket  bool
	IsOutsideSquareBracket bool
}
".
Proof. vm_compute. reflexivity. Qed.

