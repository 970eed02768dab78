(** The files of goast itself: its tests.
    Written by a program from /repo; each file is a sentence of the grammar of C75
    (so the theorems of C75 speak of it), and its text is the text of the file. *)
From Verif Require Import SpecGo GoProofs GoLayout GoCheck P_Go.

(** /repo/ast_test.go *)
Definition repo_ast_test : list item := [(DOther $"package" (shown $" goast"), 1);
  (DOther $"import" (shown $" (
	""errors""
	""testing""

	""github.com/yanun0323/goast/assert""
)"), 1);
  (DFunc None $"TestParse" [] (Flat (PCons (Some $"t") (TWord $"*testing.T") PNil)) RNone (Some (shown $"
	a := assert.New(t)
	_ = a
	{
		ff, err := ParseAst(""./ast.go"")
		a.NoError(err, ""parse ast error"")
		a.Require(ff != nil, ""nil ast check"")
		a.Require(len(ff.Scope()) != 0, ""scope length check"")
		for _, sc := range ff.Scope() {
			_ = sc
			// sc.Print()
			// println(sc.Kind().String())
			// sc.Node().Print()
			// sc.Node().IterNext(func(n *Node) bool {
			// 	if n != nil {
			// 		n.Print()
			// 	}
			// 	return n != nil
			// })
		}
	}

	{
		_, err := ParseAst(""./ast_not_exist.go"")
		a.Error(err, ""parse ast error"")
		a.Equal(errors.Is(err, ErrNotExist), true)
	}
")) None, 0)].
Example C75_repo_ast_test_ok : file_ok repo_ast_test.
Proof. apply (forallb_ok (fun i => decl_okb (fst i))); [intros [d k]; apply decl_okb_ok|]. vm_compute. reflexivity. Qed.
Example C75_repo_ast_test_text : file_text repo_ast_test = $"package goast

import (
	""errors""
	""testing""

	""github.com/yanun0323/goast/assert""
)

func TestParse(t *testing.T) {
	a := assert.New(t)
	_ = a
	{
		ff, err := ParseAst(""./ast.go"")
		a.NoError(err, ""parse ast error"")
		a.Require(ff != nil, ""nil ast check"")
		a.Require(len(ff.Scope()) != 0, ""scope length check"")
		for _, sc := range ff.Scope() {
			_ = sc
			// sc.Print()
			// println(sc.Kind().String())
			// sc.Node().Print()
			// sc.Node().IterNext(func(n *Node) bool {
			// 	if n != nil {
			// 		n.Print()
			// 	}
			// 	return n != nil
			// })
		}
	}

	{
		_, err := ParseAst(""./ast_not_exist.go"")
		a.Error(err, ""parse ast error"")
		a.Equal(errors.Is(err, ErrNotExist), true)
	}
}
".
Proof. vm_compute. reflexivity. Qed.

(** /repo/exported/main_test.go *)
Definition repo_exported_main_test : list item := [(DOther $"package" (shown $" exported"), 1);
  (DOther $"import" (shown $" (
	""testing""

	""github.com/yanun0323/goast""
	""github.com/yanun0323/goast/kind""
	""github.com/yanun0323/goast/scope""
)"), 1);
  (DFunc None $"TestExample" [] (Flat (PCons (Some $"t") (TWord $"*testing.T") PNil)) RNone (Some (shown $"
	f := ""./sample_test.go""
	ast, err := goast.ParseAst(f)
	if err != nil {
		t.Fatalf(""parse ast from file: %s, err: %+v"", f, err)
	}

	sc := make([]goast.Scope, 0, len(ast.Scope()))

	ast.IterScope(func(s goast.Scope) bool {
		switch s.Kind() {
		case scope.Const, scope.Variable, scope.Type, scope.Func, scope.Package, scope.Import:
			takePrev := false
			s.Node().IterNext(func(n *goast.Node) bool {
				if takePrev {
					n.TakePrev()
					takePrev = false
				}

				switch n.Kind() {
				case kind.Comment:
					takePrev = true
				}

				return true
			})
			sc = append(sc, s)
		}
		return true
	})

	ast = ast.SetScope(sc)
	// ast.IterScope(func(s goast.Scope) bool {
	// 	s.Node().IterNext(func(n *goast.Node) bool {
	// 		n.Print()
	// 		return true
	// 	})
	// 	return true
	// })

	s := ""./output/save_test""
	if err := ast.Save(s, false); err != nil {
		t.Fatalf(""save ast to file: %s, err: %+v"", f, err)
	}
")) None, 1);
  (DFunc None $"TestUsecase" [] (Flat (PCons (Some $"t") (TWord $"*testing.T") PNil)) RNone (Some (shown $"
	f := ""usecase_test.go""
	ast, err := goast.ParseAst(f)
	if err != nil {
		t.Fatalf(""parse ast from file: %s, err: %+v"", f, err)
	}

	ast.IterScope(func(s goast.Scope) bool {
		if _, ok := s.GetInterfaceName(); !ok {
			return true
		}

		s.Print()

		s.Node().IterNext(func(n *goast.Node) bool {
			n.Print()
			return true
		})
		return true
	})
")) None, 0)].
Example C75_repo_exported_main_test_ok : file_ok repo_exported_main_test.
Proof. apply (forallb_ok (fun i => decl_okb (fst i))); [intros [d k]; apply decl_okb_ok|]. vm_compute. reflexivity. Qed.
Example C75_repo_exported_main_test_text : file_text repo_exported_main_test = $"package exported

import (
	""testing""

	""github.com/yanun0323/goast""
	""github.com/yanun0323/goast/kind""
	""github.com/yanun0323/goast/scope""
)

func TestExample(t *testing.T) {
	f := ""./sample_test.go""
	ast, err := goast.ParseAst(f)
	if err != nil {
		t.Fatalf(""parse ast from file: %s, err: %+v"", f, err)
	}

	sc := make([]goast.Scope, 0, len(ast.Scope()))

	ast.IterScope(func(s goast.Scope) bool {
		switch s.Kind() {
		case scope.Const, scope.Variable, scope.Type, scope.Func, scope.Package, scope.Import:
			takePrev := false
			s.Node().IterNext(func(n *goast.Node) bool {
				if takePrev {
					n.TakePrev()
					takePrev = false
				}

				switch n.Kind() {
				case kind.Comment:
					takePrev = true
				}

				return true
			})
			sc = append(sc, s)
		}
		return true
	})

	ast = ast.SetScope(sc)
	// ast.IterScope(func(s goast.Scope) bool {
	// 	s.Node().IterNext(func(n *goast.Node) bool {
	// 		n.Print()
	// 		return true
	// 	})
	// 	return true
	// })

	s := ""./output/save_test""
	if err := ast.Save(s, false); err != nil {
		t.Fatalf(""save ast to file: %s, err: %+v"", f, err)
	}
}

func TestUsecase(t *testing.T) {
	f := ""usecase_test.go""
	ast, err := goast.ParseAst(f)
	if err != nil {
		t.Fatalf(""parse ast from file: %s, err: %+v"", f, err)
	}

	ast.IterScope(func(s goast.Scope) bool {
		if _, ok := s.GetInterfaceName(); !ok {
			return true
		}

		s.Print()

		s.Node().IterNext(func(n *goast.Node) bool {
			n.Print()
			return true
		})
		return true
	})
}
".
Proof. vm_compute. reflexivity. Qed.

(** /repo/extractor_test.go *)
Definition repo_extractor_test : list item := [(DOther $"package" (shown $" goast"), 1);
  (DOther $"import" (shown $" (
	""fmt""
	""testing""

	""github.com/yanun0323/goast/assert""
)"), 1);
  (DFunc None $"TestExtract" [] (Flat (PCons (Some $"t") (TWord $"*testing.T") PNil)) RNone (Some (shown $"
	a := assert.New(t)

	s := `
func Print(msg string, d decimal.Decimal) {
	// This is comment
	/* And This is (hello)
	Inner Comment */
	s := ""Hello\nThere""
	println(msg)
} 
`
	n, err := extract([]byte(s))
	a.Require(err == nil, ""extract no error"", fmt.Sprintf(""%+v"", err))

	count := 0
	_ = n.IterNext(func(n *Node) bool {
		// n.Print()
		count++
		return true
	})
	a.Require(count == 40, ""nodes length"", fmt.Sprintf(""%d"", count))
")) None, 0)].
Example C75_repo_extractor_test_ok : file_ok repo_extractor_test.
Proof. apply (forallb_ok (fun i => decl_okb (fst i))); [intros [d k]; apply decl_okb_ok|]. vm_compute. reflexivity. Qed.
Example C75_repo_extractor_test_text : file_text repo_extractor_test = $"package goast

import (
	""fmt""
	""testing""

	""github.com/yanun0323/goast/assert""
)

func TestExtract(t *testing.T) {
	a := assert.New(t)

	s := `
func Print(msg string, d decimal.Decimal) {
	// This is comment
	/* And This is (hello)
	Inner Comment */
	s := ""Hello\nThere""
	println(msg)
} 
`
	n, err := extract([]byte(s))
	a.Require(err == nil, ""extract no error"", fmt.Sprintf(""%+v"", err))

	count := 0
	_ = n.IterNext(func(n *Node) bool {
		// n.Print()
		count++
		return true
	})
	a.Require(count == 40, ""nodes length"", fmt.Sprintf(""%d"", count))
}
".
Proof. vm_compute. reflexivity. Qed.

(** /repo/helper/helper_test.go *)
Definition repo_helper_helper_test : list item := [(DOther $"package" (shown $" helper"), 1);
  (DOther $"import" (shown $" (
	""errors""
	""fmt""
	""os""
	""testing""

	""github.com/yanun0323/goast/assert""
)"), 1);
  (DFunc None $"TestGolang" [] (Flat (PCons (Some $"t") (TWord $"*testing.T") PNil)) RNone (Some (shown $"
	a := assert.New(t)

	s := ""0123456789""
	a.Require(string(s[2:5]) == ""234"", string(s[2:5]))
")) None, 1);
  (DFunc None $"TestHasPrefix" [] (Flat (PCons (Some $"t") (TWord $"*testing.T") PNil)) RNone (Some (shown $"
	a := assert.New(t)

	testCases := []struct {
		s      []byte
		prefix string
		ok     bool
	}{
		{s: []byte(""123456""), prefix: """", ok: true},
		{s: []byte(""123456""), prefix: ""123"", ok: true},
		{s: []byte(""123456""), prefix: ""456"", ok: false},
		{s: []byte(""123456""), prefix: ""123456"", ok: true},
		{s: []byte(""123456""), prefix: ""1234567"", ok: false},
		{s: []byte(""""), prefix: """", ok: true},
		{s: []byte(""""), prefix: ""123"", ok: false},
	}

	for ti, tc := range testCases {
		desc := fmt.Sprintf(""test case: %d"", ti)
		t.Run(desc, func(t *testing.T) {
			result := HasPrefix(tc.s, tc.prefix)
			a.Require(result == tc.ok, fmt.Sprintf(""expected %v, but get %v"", tc.ok, result))
		})
	}
")) None, 1);
  (DFunc None $"TestHasSuffix" [] (Flat (PCons (Some $"t") (TWord $"*testing.T") PNil)) RNone (Some (shown $"
	a := assert.New(t)

	testCases := []struct {
		s      []byte
		suffix string
		ok     bool
	}{
		{s: []byte(""123456""), suffix: """", ok: true},
		{s: []byte(""123456""), suffix: ""456"", ok: true},
		{s: []byte(""123456""), suffix: ""123"", ok: false},
		{s: []byte(""123456""), suffix: ""123456"", ok: true},
		{s: []byte(""123456""), suffix: ""0123456"", ok: false},
		{s: []byte(""""), suffix: """", ok: true},
		{s: []byte(""""), suffix: ""123"", ok: false},
	}

	for ti, tc := range testCases {
		desc := fmt.Sprintf(""test case: %d"", ti)
		t.Run(desc, func(t *testing.T) {
			result := HasSuffix(tc.s, tc.suffix)
			a.Require(result == tc.ok, fmt.Sprintf(""expected %v, but get %v"", tc.ok, result))
		})
	}
")) None, 1);
  (DFunc None $"TestPrintTidy" [] (Flat (PCons (Some $"t") (TWord $"*testing.T") PNil)) RNone (Some (shown $"
	a := assert.New(t)

	s := ""\n \n \n\t\r""
	a.Equal(TidyText(s), ""\\n·\\n·\\n -> ·"")
")) None, 1);
  (DFunc None $"TestReadFile" [] (Flat (PCons (Some $"t") (TWord $"*testing.T") PNil)) RNone (Some (shown $"
	a := assert.New(t)

	_, err := ReadFile(""./empty/no.go"")
	a.Require(errors.Is(err, os.ErrNotExist))
")) None, 0)].
Example C75_repo_helper_helper_test_ok : file_ok repo_helper_helper_test.
Proof. apply (forallb_ok (fun i => decl_okb (fst i))); [intros [d k]; apply decl_okb_ok|]. vm_compute. reflexivity. Qed.
Example C75_repo_helper_helper_test_text : file_text repo_helper_helper_test = $"package helper

import (
	""errors""
	""fmt""
	""os""
	""testing""

	""github.com/yanun0323/goast/assert""
)

func TestGolang(t *testing.T) {
	a := assert.New(t)

	s := ""0123456789""
	a.Require(string(s[2:5]) == ""234"", string(s[2:5]))
}

func TestHasPrefix(t *testing.T) {
	a := assert.New(t)

	testCases := []struct {
		s      []byte
		prefix string
		ok     bool
	}{
		{s: []byte(""123456""), prefix: """", ok: true},
		{s: []byte(""123456""), prefix: ""123"", ok: true},
		{s: []byte(""123456""), prefix: ""456"", ok: false},
		{s: []byte(""123456""), prefix: ""123456"", ok: true},
		{s: []byte(""123456""), prefix: ""1234567"", ok: false},
		{s: []byte(""""), prefix: """", ok: true},
		{s: []byte(""""), prefix: ""123"", ok: false},
	}

	for ti, tc := range testCases {
		desc := fmt.Sprintf(""test case: %d"", ti)
		t.Run(desc, func(t *testing.T) {
			result := HasPrefix(tc.s, tc.prefix)
			a.Require(result == tc.ok, fmt.Sprintf(""expected %v, but get %v"", tc.ok, result))
		})
	}
}

func TestHasSuffix(t *testing.T) {
	a := assert.New(t)

	testCases := []struct {
		s      []byte
		suffix string
		ok     bool
	}{
		{s: []byte(""123456""), suffix: """", ok: true},
		{s: []byte(""123456""), suffix: ""456"", ok: true},
		{s: []byte(""123456""), suffix: ""123"", ok: false},
		{s: []byte(""123456""), suffix: ""123456"", ok: true},
		{s: []byte(""123456""), suffix: ""0123456"", ok: false},
		{s: []byte(""""), suffix: """", ok: true},
		{s: []byte(""""), suffix: ""123"", ok: false},
	}

	for ti, tc := range testCases {
		desc := fmt.Sprintf(""test case: %d"", ti)
		t.Run(desc, func(t *testing.T) {
			result := HasSuffix(tc.s, tc.suffix)
			a.Require(result == tc.ok, fmt.Sprintf(""expected %v, but get %v"", tc.ok, result))
		})
	}
}

func TestPrintTidy(t *testing.T) {
	a := assert.New(t)

	s := ""\n \n \n\t\r""
	a.Equal(TidyText(s), ""\\n·\\n·\\n -> ·"")
}

func TestReadFile(t *testing.T) {
	a := assert.New(t)

	_, err := ReadFile(""./empty/no.go"")
	a.Require(errors.Is(err, os.ErrNotExist))
}
".
Proof. vm_compute. reflexivity. Qed.

(** /repo/kind_resetter_all_test.go *)
Definition repo_kind_resetter_all_test : list item := [(DOther $"package" (shown $" goast"), 1);
  (DOther $"import" (shown $" (
	""fmt""
	""testing""

	""github.com/yanun0323/goast/assert""
	""github.com/yanun0323/goast/kind""
)"), 1);
  (DFunc None $"TestCommonResetter" [] (Flat (PCons (Some $"t") (TWord $"*testing.T") PNil)) RNone (Some (shown $"
	a := assert.New(t)
	text := `func Hello(ctx context.Context, m map[string]string, f1 func(int) error, f2 func(num int8) (int32, error)) error {
	return (int, nil)
}`

	head, err := extract([]byte(text))
	a.NoError(err, fmt.Sprintf(""extract text, err: %s"", err))

	tail := resetKind(head)
	_ = head.IterNext(func(n *Node) bool {
		switch n.Text() {
		case ""Hello"":
			a.Equal(n.Kind(), kind.FuncName, fmt.Sprintf(""%s should be kind.FuncName"", n.Text()))
		case ""ctx"",
			""m"",
			""f1"",
			""f2"":
			a.Equal(n.Kind(), kind.ParamName, fmt.Sprintf(""%s should be kind.ParamName"", n.Text()))
		case ""context.Context"",
			""map[string]string"",
			""func(int) error"",
			""func(num int8) (int32, error)"":
			a.Equal(n.Kind(), kind.ParamType, fmt.Sprintf(""%s should be kind.ParamType"", n.Text()))
		}

		return true
	})

	a.Nil(tail, ""tail should be nil"")
")) None, 0)].
Example C75_repo_kind_resetter_all_test_ok : file_ok repo_kind_resetter_all_test.
Proof. apply (forallb_ok (fun i => decl_okb (fst i))); [intros [d k]; apply decl_okb_ok|]. vm_compute. reflexivity. Qed.
Example C75_repo_kind_resetter_all_test_text : file_text repo_kind_resetter_all_test = $"package goast

import (
	""fmt""
	""testing""

	""github.com/yanun0323/goast/assert""
	""github.com/yanun0323/goast/kind""
)

func TestCommonResetter(t *testing.T) {
	a := assert.New(t)
	text := `func Hello(ctx context.Context, m map[string]string, f1 func(int) error, f2 func(num int8) (int32, error)) error {
	return (int, nil)
}`

	head, err := extract([]byte(text))
	a.NoError(err, fmt.Sprintf(""extract text, err: %s"", err))

	tail := resetKind(head)
	_ = head.IterNext(func(n *Node) bool {
		switch n.Text() {
		case ""Hello"":
			a.Equal(n.Kind(), kind.FuncName, fmt.Sprintf(""%s should be kind.FuncName"", n.Text()))
		case ""ctx"",
			""m"",
			""f1"",
			""f2"":
			a.Equal(n.Kind(), kind.ParamName, fmt.Sprintf(""%s should be kind.ParamName"", n.Text()))
		case ""context.Context"",
			""map[string]string"",
			""func(int) error"",
			""func(num int8) (int32, error)"":
			a.Equal(n.Kind(), kind.ParamType, fmt.Sprintf(""%s should be kind.ParamType"", n.Text()))
		}

		return true
	})

	a.Nil(tail, ""tail should be nil"")
}
".
Proof. vm_compute. reflexivity. Qed.

(** /repo/kind_resetter_type_test.go *)
Definition repo_kind_resetter_type_test : list item := [(DOther $"package" (shown $" goast"), 1);
  (DOther $"import" (shown $" (
	""fmt""
	""testing""

	""github.com/yanun0323/goast/assert""
	""github.com/yanun0323/goast/kind""
)"), 1);
  (DFunc None $"TestInterfaceResetter" [] (Flat (PCons (Some $"t") (TWord $"*testing.T") PNil)) RNone (Some (shown $"
	a := assert.New(t)

	interfaceText := `type Student interface {
		Meow(int32)
		SelfIntroduction(string) []byte
		Laugh(loud float64) (bool, error)
		Learn(fn func(string) map[string]string) (func(int)int64, error)
}`

	interfaceNode, err := extract([]byte(interfaceText))
	a.NoError(err, ""extract interface text should be no error"")

	interfaceResult := typeResetter{}.Run(interfaceNode)
	a.Nil(interfaceResult, ""reset interface node"", interfaceResult.Text())

	interfaceAssertMap := map[string]kind.Kind{
		""Student"": kind.TypeName,
		""Meow"":    kind.FuncName, ""SelfIntroduction"": kind.FuncName, ""Laugh"": kind.FuncName, ""Learn"": kind.FuncName,
		""loud"": kind.ParamName, ""fn"": kind.ParamName,
		""[]byte"": kind.ParamType,
	}
	interfaceNode.IterNext(func(n *Node) bool {
		if expected, ok := interfaceAssertMap[n.Text()]; ok {
			a.Equal(n.Kind(), expected, n.Text())
			delete(interfaceAssertMap, n.Text())
		}
		return true
	})
	a.Equal(len(interfaceAssertMap), 0, ""interfaceAssertMap"", fmt.Sprintf(""%+v"", interfaceAssertMap))
")) None, 1);
  (DFunc None $"TestStructResetter" [] (Flat (PCons (Some $"t") (TWord $"*testing.T") PNil)) RNone (Some (shown $"
	a := assert.New(t)

	structText := `type Student[T any] struct {
		Name                                string
		Age /* negative means not born */, Age2	int8
		Relationship                        map[string]string
		FuncRelationship                    map[string]func(int, int8) error
		FuncRelationship2                   map[string]func(n int32, nn int64) error
		FuncRelationship3                   map[string]func(uint, uint8) (uint64, error)
		/* 123 */ Fn /* 234 */ func( /* 345 */
			/* 456 */ context.Context, /* 567 */
			/* 678 */ string, /* 789 */
			/* 321 */) /* 432 */ ( /* 543 */
			/* 654 */ int, /* 765 */
			/* 876 */ error, /* 987 */
			/* 000 */) /* comment */
		}`

	structNode, err := extract([]byte(structText))
	a.NoError(err, ""extract struct text should be no error"")

	structResult := typeResetter{}.Run(structNode)
	a.Nil(structResult, ""reset struct node"", structResult.Text())
	structAssertMap := map[string]kind.Kind{
		""Student"": kind.TypeName,
		""Age"":     kind.ParamName, ""Age2"": kind.ParamName, ""Relationship"": kind.ParamName, ""FuncRelationship"": kind.ParamName,
		""FuncRelationship2"": kind.ParamName, ""FuncRelationship3"": kind.ParamName, ""Fn"": kind.ParamName,
		""n"": kind.ParamName, ""nn"": kind.ParamName, ""context.Context"": kind.ParamType,
	}
	structNode.IterNext(func(n *Node) bool {
		if expected, ok := structAssertMap[n.Text()]; ok {
			a.Equal(n.Kind(), expected, n.Text())
			delete(structAssertMap, n.Text())
		}
		return true
	})
	a.Equal(len(structAssertMap), 0, ""structAssertMap"", fmt.Sprintf(""%+v"", structAssertMap))
")) None, 1);
  (DFunc None $"TestOtherResetter" [] (Flat (PCons (Some $"t") (TWord $"*testing.T") PNil)) RNone (Some (shown $"
	a := assert.New(t)

	otherText := `type setter  /* comment */ func( /* comment */
		/* comment */ context.Context, /* comment */
		/* comment */ string, /* comment */
		/* comment */) /* comment */ ( /* comment */
		/* comment */ int, /* comment */
		/* comment */ error, /* comment */
		/* comment */) /* comment */

type reMap map[uint8]float64

type reSlice []uint64`

	otherNode, err := extract([]byte(otherText))
	a.NoError(err, ""extract other text should be no error"")

	otherResult := typeResetter{}.Run(otherNode)
	a.Nil(otherResult, ""reset other node"", otherResult.Text())

	otherAssertMap := map[string]kind.Kind{}
	otherNode.IterNext(func(n *Node) bool {
		if expected, ok := otherAssertMap[n.Text()]; ok {
			a.Equal(n.Kind(), expected, n.Text())
			delete(otherAssertMap, n.Text())
		}
		return true
	})
	a.Equal(len(otherAssertMap), 0, ""otherAssertMap"", fmt.Sprintf(""%+v"", otherAssertMap))
")) None, 1);
  (DFunc None $"TestStructResetterGetNameCount" [] (Flat (PCons (Some $"t") (TWord $"*testing.T") PNil)) RNone (Some (shown $"
	a := assert.New(t)

	s1 := ""\t\tRepository\n""
	s1n, err := extract([]byte(s1))
	a.NoError(err, ""s1n"")
	a.Equal(structResetter{}.getRowNameCount(s1n), 0, ""s1n count"")

	s2 := ""\t\trepo1, repo2 Repository\n""
	s2n, err := extract([]byte(s2))
	a.NoError(err, ""s2n"")
	a.Equal(structResetter{}.getRowNameCount(s2n), 2, ""s2n count"")

	s3 := ""\t\trepo Repository\n""
	s3n, err := extract([]byte(s3))
	a.NoError(err, ""s3n"")
	a.Equal(structResetter{}.getRowNameCount(s3n), 1, ""s3n count"")

	s4 := ""\t\trepo1, repo2, repo3, repo4 func(\n\tint,\n\tint,\n\t)(\n\tint,\n\terror,\n\t)\n""
	s4n, err := extract([]byte(s4))
	a.NoError(err, ""s4n"")
	a.Equal(structResetter{}.getRowNameCount(s4n), 4, ""s4n count"")

	s5 := ""\t\trepository.Repository[Kind]\n""
	s5n, err := extract([]byte(s5))
	a.NoError(err, ""s5n"")
	a.Equal(structResetter{}.getRowNameCount(s5n), 0, ""s5n count"")
")) None, 0)].
Example C75_repo_kind_resetter_type_test_ok : file_ok repo_kind_resetter_type_test.
Proof. apply (forallb_ok (fun i => decl_okb (fst i))); [intros [d k]; apply decl_okb_ok|]. vm_compute. reflexivity. Qed.
Example C75_repo_kind_resetter_type_test_text : file_text repo_kind_resetter_type_test = $"package goast

import (
	""fmt""
	""testing""

	""github.com/yanun0323/goast/assert""
	""github.com/yanun0323/goast/kind""
)

func TestInterfaceResetter(t *testing.T) {
	a := assert.New(t)

	interfaceText := `type Student interface {
		Meow(int32)
		SelfIntroduction(string) []byte
		Laugh(loud float64) (bool, error)
		Learn(fn func(string) map[string]string) (func(int)int64, error)
}`

	interfaceNode, err := extract([]byte(interfaceText))
	a.NoError(err, ""extract interface text should be no error"")

	interfaceResult := typeResetter{}.Run(interfaceNode)
	a.Nil(interfaceResult, ""reset interface node"", interfaceResult.Text())

	interfaceAssertMap := map[string]kind.Kind{
		""Student"": kind.TypeName,
		""Meow"":    kind.FuncName, ""SelfIntroduction"": kind.FuncName, ""Laugh"": kind.FuncName, ""Learn"": kind.FuncName,
		""loud"": kind.ParamName, ""fn"": kind.ParamName,
		""[]byte"": kind.ParamType,
	}
	interfaceNode.IterNext(func(n *Node) bool {
		if expected, ok := interfaceAssertMap[n.Text()]; ok {
			a.Equal(n.Kind(), expected, n.Text())
			delete(interfaceAssertMap, n.Text())
		}
		return true
	})
	a.Equal(len(interfaceAssertMap), 0, ""interfaceAssertMap"", fmt.Sprintf(""%+v"", interfaceAssertMap))
}

func TestStructResetter(t *testing.T) {
	a := assert.New(t)

	structText := `type Student[T any] struct {
		Name                                string
		Age /* negative means not born */, Age2	int8
		Relationship                        map[string]string
		FuncRelationship                    map[string]func(int, int8) error
		FuncRelationship2                   map[string]func(n int32, nn int64) error
		FuncRelationship3                   map[string]func(uint, uint8) (uint64, error)
		/* 123 */ Fn /* 234 */ func( /* 345 */
			/* 456 */ context.Context, /* 567 */
			/* 678 */ string, /* 789 */
			/* 321 */) /* 432 */ ( /* 543 */
			/* 654 */ int, /* 765 */
			/* 876 */ error, /* 987 */
			/* 000 */) /* comment */
		}`

	structNode, err := extract([]byte(structText))
	a.NoError(err, ""extract struct text should be no error"")

	structResult := typeResetter{}.Run(structNode)
	a.Nil(structResult, ""reset struct node"", structResult.Text())
	structAssertMap := map[string]kind.Kind{
		""Student"": kind.TypeName,
		""Age"":     kind.ParamName, ""Age2"": kind.ParamName, ""Relationship"": kind.ParamName, ""FuncRelationship"": kind.ParamName,
		""FuncRelationship2"": kind.ParamName, ""FuncRelationship3"": kind.ParamName, ""Fn"": kind.ParamName,
		""n"": kind.ParamName, ""nn"": kind.ParamName, ""context.Context"": kind.ParamType,
	}
	structNode.IterNext(func(n *Node) bool {
		if expected, ok := structAssertMap[n.Text()]; ok {
			a.Equal(n.Kind(), expected, n.Text())
			delete(structAssertMap, n.Text())
		}
		return true
	})
	a.Equal(len(structAssertMap), 0, ""structAssertMap"", fmt.Sprintf(""%+v"", structAssertMap))
}

func TestOtherResetter(t *testing.T) {
	a := assert.New(t)

	otherText := `type setter  /* comment */ func( /* comment */
		/* comment */ context.Context, /* comment */
		/* comment */ string, /* comment */
		/* comment */) /* comment */ ( /* comment */
		/* comment */ int, /* comment */
		/* comment */ error, /* comment */
		/* comment */) /* comment */

type reMap map[uint8]float64

type reSlice []uint64`

	otherNode, err := extract([]byte(otherText))
	a.NoError(err, ""extract other text should be no error"")

	otherResult := typeResetter{}.Run(otherNode)
	a.Nil(otherResult, ""reset other node"", otherResult.Text())

	otherAssertMap := map[string]kind.Kind{}
	otherNode.IterNext(func(n *Node) bool {
		if expected, ok := otherAssertMap[n.Text()]; ok {
			a.Equal(n.Kind(), expected, n.Text())
			delete(otherAssertMap, n.Text())
		}
		return true
	})
	a.Equal(len(otherAssertMap), 0, ""otherAssertMap"", fmt.Sprintf(""%+v"", otherAssertMap))
}

func TestStructResetterGetNameCount(t *testing.T) {
	a := assert.New(t)

	s1 := ""\t\tRepository\n""
	s1n, err := extract([]byte(s1))
	a.NoError(err, ""s1n"")
	a.Equal(structResetter{}.getRowNameCount(s1n), 0, ""s1n count"")

	s2 := ""\t\trepo1, repo2 Repository\n""
	s2n, err := extract([]byte(s2))
	a.NoError(err, ""s2n"")
	a.Equal(structResetter{}.getRowNameCount(s2n), 2, ""s2n count"")

	s3 := ""\t\trepo Repository\n""
	s3n, err := extract([]byte(s3))
	a.NoError(err, ""s3n"")
	a.Equal(structResetter{}.getRowNameCount(s3n), 1, ""s3n count"")

	s4 := ""\t\trepo1, repo2, repo3, repo4 func(\n\tint,\n\tint,\n\t)(\n\tint,\n\terror,\n\t)\n""
	s4n, err := extract([]byte(s4))
	a.NoError(err, ""s4n"")
	a.Equal(structResetter{}.getRowNameCount(s4n), 4, ""s4n count"")

	s5 := ""\t\trepository.Repository[Kind]\n""
	s5n, err := extract([]byte(s5))
	a.NoError(err, ""s5n"")
	a.Equal(structResetter{}.getRowNameCount(s5n), 0, ""s5n count"")
}
".
Proof. vm_compute. reflexivity. Qed.

(** /repo/node_test.go *)
Definition repo_node_test : list item := [(DOther $"package" (shown $" goast"), 1);
  (DOther $"import" (shown $" (
	""testing""

	""github.com/yanun0323/goast/assert""
	""github.com/yanun0323/goast/kind""
)"), 1);
  (DFunc None $"list" [] (Flat (PCons (Some $"values") (TWord $"...string") PNil)) (RMany (Flat (PCons None (TWord $"head") (PCons (Some $"tail") (TWord $"*Node") PNil)))) (Some (shown $"
	if len(values) == 0 {
		return nil, nil
	}

	h := NewNode(0, values[0], kind.Raw)
	cur := h
	t := h.Next()
	for _, v := range values[1:] {
		n := NewNode(0, v, kind.Raw)

		cur.setNext(n)
		n.setPrev(cur)

		cur = n
		t = n
	}

	return h, t
")) None, 1);
  (DType $"direction" [] false (TWord $"uint8") PNil None, 1);
  (DOther $"const" (shown $" (
	l direction = iota + 1
	r
)"), 1);
  (DFunc None $"AssertNode" [] (Flat (PCons (Some $"a") (TWord $"assert.Assert") (PCons (Some $"n") (TWord $"*Node") (PCons (Some $"d") (TWord $"direction") (PCons (Some $"expected") (TWord $"...string") PNil))))) RNone (Some (shown $"
	a.T().Helper()
	iter := func(n *Node) *Node { return n.Prev() }
	if d == r {
		iter = func(n *Node) *Node { return n.Next() }
	}

	i := 0
	for h := n; h != nil; h, i = iter(h), i+1 {
		if i >= len(expected) {
			a.T().Fatalf(""%s: extra expected node (%s)"", a.T().Name(), h.Text())
		}

		a.Equal(h.Text(), expected[i])
	}

	if i < len(expected) {
		a.T().Fatalf(""%s: mismatch node length expected (%s), but got nil"", a.T().Name(), expected[i])
	}
")) None, 1);
  (DFunc None $"TestNilNodeMethod" [] (Flat (PCons (Some $"t") (TWord $"*testing.T") PNil)) RNone (Some (shown $"
	a := assert.New(t)

	var n *Node

	a.NoPanic(func() { n.loop(func(nn *Node) *Node { return nn.Next() }, func(n *Node) bool { return true }) })
	a.NoPanic(func() { n.IterPrev(func(n *Node) bool { return true }) })
	a.NoPanic(func() { n.IterNext(func(n *Node) bool { return true }) })
	a.NoPanic(func() { n.Prev() })
	a.NoPanic(func() { n.Next() })
	a.NoPanic(func() { n.InsertPrev(nil) })
	a.NoPanic(func() { n.InsertNext(nil) })
	a.NoPanic(func() { n.ReplacePrev(nil) })
	a.NoPanic(func() { n.ReplaceNext(nil) })
	a.NoPanic(func() { n.TakePrev() })
	a.NoPanic(func() { n.TakeNext() })
	a.NoPanic(func() { n.RemovePrev() })
	a.NoPanic(func() { n.RemoveNext() })
	a.NoPanic(func() { n.Line() })
	a.NoPanic(func() { n.Kind() })
	a.NoPanic(func() { n.SetKind(kind.Raw) })
	a.NoPanic(func() { n.Text() })
	a.NoPanic(func() { n.Description() })
	a.NoPanic(func() { n.Copy() })
	a.NoPanic(func() { n.Copy(true) })
	a.NoPanic(func() { n.setPrev(nil) })
	a.NoPanic(func() { n.setNext(nil) })
")) None, 1);
  (DFunc None $"TestNewNode" [] (Flat (PCons (Some $"t") (TWord $"*testing.T") PNil)) RNone (Some (shown $"
	a := assert.New(t)

	head := NewNodes(10, ""1"", ""2"", ""3"", ""4"", ""5"", ""6"")
	tail := head.IterNext(func(n *Node) bool { return n.Next() != nil })
	head.IterNext(func(n *Node) bool {
		a.Equal(n.Line(), 10)
		return true
	})

	AssertNode(a, head, r, ""1"", ""2"", ""3"", ""4"", ""5"", ""6"")
	AssertNode(a, head, l, ""1"")
	AssertNode(a, tail, r, ""6"")
	AssertNode(a, tail, l, ""6"", ""5"", ""4"", ""3"", ""2"", ""1"")

")) None, 1);
  (DFunc None $"TestCopy" [] (Flat (PCons (Some $"t") (TWord $"*testing.T") PNil)) RNone (Some (shown $"
	a := assert.New(t)

	head := NewNodes(10, ""1"", ""2"", ""3"", ""4"", ""5"", ""6"")
	tail := head.IterNext(func(n *Node) bool { return n.Next() != nil })
	n3 := head.Next().Next()

	println(""Copy"")

	n3c1 := n3.Copy()
	a.NotEqual(n3, n3c1)
	a.Nil(n3c1.Prev())
	a.Nil(n3c1.Next())

	println(""Copy(true)"")

	n3c := n3.Copy(true)
	cHead := n3c.IterPrev(func(n *Node) bool { return n.Prev() != nil })
	cTail := n3c.IterNext(func(n *Node) bool { return n.Next() != nil })

	println(""Assert A"")

	AssertNode(a, n3c, r, ""3"", ""4"", ""5"", ""6"")
	AssertNode(a, n3c, l, ""3"", ""2"", ""1"")

	AssertNode(a, cHead, l, ""1"")
	AssertNode(a, cHead, r, ""1"", ""2"", ""3"", ""4"", ""5"", ""6"")
	AssertNode(a, cTail, r, ""6"")
	AssertNode(a, cTail, l, ""6"", ""5"", ""4"", ""3"", ""2"", ""1"")

	println(""Assert B"")

	foo := head
	foo.IterNext(func(_ *Node) bool {
		a.NotEqual(head, cHead)
		a.Equal(head.Text(), cHead.Text())
		a.Equal(head.Kind(), cHead.Kind())
		a.Equal(head.Line(), cHead.Line())

		a.NotEqual(tail, cTail)
		a.Equal(tail.Text(), cTail.Text())
		a.Equal(tail.Kind(), cTail.Kind())
		a.Equal(tail.Line(), cTail.Line())

		head = head.Next()
		cHead = cHead.Next()

		tail = tail.Prev()
		cTail = cTail.Prev()

		return true
	})

")) None, 1);
  (DFunc None $"TestNodeTake" [] (Flat (PCons (Some $"t") (TWord $"*testing.T") PNil)) RNone (Some (shown $"
	a := assert.New(t)

	// TakePrev
	a.NoPanic(func() {
		head, _ := list(""1"", ""2"", ""3"", ""4"", ""5"")
		AssertNode(a, head, r, ""1"", ""2"", ""3"", ""4"", ""5"")

		cur := head.Next().Next()
		a.Equal(cur.Text(), ""3"")

		took := cur.TakePrev()
		a.Equal(took.Text(), ""2"")
		a.Nil(took.Prev())
		a.Nil(took.Next())

		AssertNode(a, head, l, ""1"")
		AssertNode(a, head, r, ""1"", ""3"", ""4"", ""5"")
	})

	// TakeNext
	a.NoPanic(func() {
		head, _ := list(""1"", ""2"", ""3"", ""4"", ""5"")
		AssertNode(a, head, r, ""1"", ""2"", ""3"", ""4"", ""5"")

		cur := head.Next().Next()
		a.Equal(cur.Text(), ""3"")

		took := cur.TakeNext()
		a.Equal(took.Text(), ""4"")
		a.Nil(took.Prev())
		a.Nil(took.Next())

		AssertNode(a, head, l, ""1"")
		AssertNode(a, head, r, ""1"", ""2"", ""3"", ""5"")
	})
")) None, 1);
  (DFunc None $"TestNodeRemove" [] (Flat (PCons (Some $"t") (TWord $"*testing.T") PNil)) RNone (Some (shown $"
	a := assert.New(t)

	// RemovePrev
	a.NoPanic(func() {
		head, _ := list(""1"", ""2"", ""3"", ""4"", ""5"")
		AssertNode(a, head, r, ""1"", ""2"", ""3"", ""4"", ""5"")

		cur := head.Next().Next()
		a.Equal(cur.Text(), ""3"")

		removed := cur.RemovePrev()

		AssertNode(a, removed, l, ""2"", ""1"")
		AssertNode(a, removed, r, ""2"")
		AssertNode(a, cur, l, ""3"")
		AssertNode(a, cur, r, ""3"", ""4"", ""5"")
		AssertNode(a, head, l, ""1"")
		AssertNode(a, head, r, ""1"", ""2"")
	})

	// RemoveNext
	a.NoPanic(func() {
		head, _ := list(""1"", ""2"", ""3"", ""4"", ""5"")
		AssertNode(a, head, r, ""1"", ""2"", ""3"", ""4"", ""5"")

		cur := head.Next().Next()
		a.Equal(cur.Text(), ""3"")

		removed := cur.RemoveNext()

		AssertNode(a, removed, l, ""4"")
		AssertNode(a, removed, r, ""4"", ""5"")
		AssertNode(a, cur, l, ""3"", ""2"", ""1"")
		AssertNode(a, cur, r, ""3"")
		AssertNode(a, head, l, ""1"")
		AssertNode(a, head, r, ""1"", ""2"", ""3"")
	})
")) None, 1);
  (DFunc None $"TestNodeInsert" [] (Flat (PCons (Some $"t") (TWord $"*testing.T") PNil)) RNone (Some (shown $"
	a := assert.New(t)

	// InsertPrev
	a.NoPanic(func() {
		head, _ := list(""1"", ""2"", ""3"", ""4"", ""5"")
		head2, _ := list(""-1"", ""-2"", ""-3"", ""-4"", ""-5"")
		AssertNode(a, head, r, ""1"", ""2"", ""3"", ""4"", ""5"")
		AssertNode(a, head2, r, ""-1"", ""-2"", ""-3"", ""-4"", ""-5"")

		cur := head.Next().Next()
		a.Equal(cur.Text(), ""3"")

		nn := head2.Next().Next()
		a.Equal(nn.Text(), ""-3"")

		prev, next := cur.InsertPrev(nn)

		AssertNode(a, head, l, ""1"")
		AssertNode(a, head, r, ""1"", ""2"", ""-3"", ""3"", ""4"", ""5"")

		AssertNode(a, head2, l, ""-1"")
		AssertNode(a, head2, r, ""-1"", ""-2"")

		AssertNode(a, prev, l, ""-2"", ""-1"")
		AssertNode(a, prev, r, ""-2"")

		AssertNode(a, next, l, ""-4"")
		AssertNode(a, next, r, ""-4"", ""-5"")

	})

	// InsertNext
	a.NoPanic(func() {
		head, _ := list(""1"", ""2"", ""3"", ""4"", ""5"")
		head2, _ := list(""-1"", ""-2"", ""-3"", ""-4"", ""-5"")
		AssertNode(a, head, r, ""1"", ""2"", ""3"", ""4"", ""5"")
		AssertNode(a, head2, r, ""-1"", ""-2"", ""-3"", ""-4"", ""-5"")

		cur := head.Next().Next()
		a.Equal(cur.Text(), ""3"")

		nn := head2.Next().Next()
		a.Equal(nn.Text(), ""-3"")

		prev, next := cur.InsertNext(nn)

		AssertNode(a, head, l, ""1"")
		AssertNode(a, head, r, ""1"", ""2"", ""3"", ""-3"", ""4"", ""5"")

		AssertNode(a, head2, l, ""-1"")
		AssertNode(a, head2, r, ""-1"", ""-2"")

		AssertNode(a, prev, l, ""-2"", ""-1"")
		AssertNode(a, prev, r, ""-2"")

		AssertNode(a, next, l, ""-4"")
		AssertNode(a, next, r, ""-4"", ""-5"")

	})
")) None, 1);
  (DFunc None $"TestNodeReplace" [] (Flat (PCons (Some $"t") (TWord $"*testing.T") PNil)) RNone (Some (shown $"
	a := assert.New(t)

	// ReplacePrev
	a.NoPanic(func() {
		head, _ := list(""1"", ""2"", ""3"", ""4"", ""5"")
		head2, _ := list(""-1"", ""-2"", ""-3"", ""-4"", ""-5"")
		AssertNode(a, head, r, ""1"", ""2"", ""3"", ""4"", ""5"")
		AssertNode(a, head2, r, ""-1"", ""-2"", ""-3"", ""-4"", ""-5"")

		cur := head.Next().Next()
		a.Equal(cur.Text(), ""3"")

		nn := head2.Next().Next()
		a.Equal(nn.Text(), ""-3"")

		prev, next := cur.ReplacePrev(nn)

		AssertNode(a, head, l, ""1"")
		AssertNode(a, head, r, ""1"", ""2"")

		AssertNode(a, head2, l, ""-1"")
		AssertNode(a, head2, r, ""-1"", ""-2"", ""-3"", ""3"", ""4"", ""5"")

		AssertNode(a, prev, l, ""2"", ""1"")
		AssertNode(a, prev, r, ""2"")

		AssertNode(a, next, l, ""-4"")
		AssertNode(a, next, r, ""-4"", ""-5"")

	})

	// ReplaceNext
	a.NoPanic(func() {
		head, _ := list(""1"", ""2"", ""3"", ""4"", ""5"")
		head2, _ := list(""-1"", ""-2"", ""-3"", ""-4"", ""-5"")
		AssertNode(a, head, r, ""1"", ""2"", ""3"", ""4"", ""5"")
		AssertNode(a, head2, r, ""-1"", ""-2"", ""-3"", ""-4"", ""-5"")

		cur := head.Next().Next()
		a.Equal(cur.Text(), ""3"")

		nn := head2.Next().Next()
		a.Equal(nn.Text(), ""-3"")

		prev, next := cur.ReplaceNext(nn)

		AssertNode(a, head, l, ""1"")
		AssertNode(a, head, r, ""1"", ""2"", ""3"", ""-3"", ""-4"", ""-5"")

		AssertNode(a, head2, l, ""-1"")
		AssertNode(a, head2, r, ""-1"", ""-2"")

		AssertNode(a, prev, l, ""-2"", ""-1"")
		AssertNode(a, prev, r, ""-2"")

		AssertNode(a, next, l, ""4"")
		AssertNode(a, next, r, ""4"", ""5"")

		n, _ := list(""1"", ""2"")
		oP, oN := n.ReplaceNext(n.Next())
		AssertNode(a, n, r, ""1"", ""2"")
		a.Nil(oP)
		a.Nil(oN)
	})
")) None, 1);
  (DFunc None $"TestIsolate" [] (Flat (PCons (Some $"t") (TWord $"*testing.T") PNil)) RNone (Some (shown $"
	a := assert.New(t)
	head, tail := list(""1"", ""2"", ""3"")

	mid := head.Next()
	mid.Isolate()

	a.Nil(head.Prev())
	a.Nil(head.Next())

	a.Nil(tail.Prev())
	a.Nil(tail.Next())

	a.Nil(mid.Prev())
	a.Nil(mid.Next())
")) None, 1);
  (DFunc None $"TestCombine" [] (Flat (PCons (Some $"t") (TWord $"*testing.T") PNil)) RNone (Some (shown $"
	a := assert.New(t)

	n1, _ := list(""1"")
	n2, _ := list(""2"")
	n3, _ := list(""3"")
	n4, _ := list(""4"", ""5"")
	n5 := n4.Next()

	n1.CombineNext(kind.Raw, n2, n3, n4)

	a.Equal(n1.Text(), ""1234"")
	AssertNode(a, n1, r, ""1234"")

	a.Nil(n5.Next())
	a.Nil(n5.Prev())

	var n *Node

	n = n.CombineNext(kind.Raw, n1, n5)
	a.Equal(n.Text(), ""12345"")
	AssertNode(a, n, r, ""12345"")
")) None, 0)].
Example C75_repo_node_test_ok : file_ok repo_node_test.
Proof. apply (forallb_ok (fun i => decl_okb (fst i))); [intros [d k]; apply decl_okb_ok|]. vm_compute. reflexivity. Qed.
Example C75_repo_node_test_text : file_text repo_node_test = $"package goast

import (
	""testing""

	""github.com/yanun0323/goast/assert""
	""github.com/yanun0323/goast/kind""
)

func list(values ...string) (head, tail *Node) {
	if len(values) == 0 {
		return nil, nil
	}

	h := NewNode(0, values[0], kind.Raw)
	cur := h
	t := h.Next()
	for _, v := range values[1:] {
		n := NewNode(0, v, kind.Raw)

		cur.setNext(n)
		n.setPrev(cur)

		cur = n
		t = n
	}

	return h, t
}

type direction uint8

const (
	l direction = iota + 1
	r
)

func AssertNode(a assert.Assert, n *Node, d direction, expected ...string) {
	a.T().Helper()
	iter := func(n *Node) *Node { return n.Prev() }
	if d == r {
		iter = func(n *Node) *Node { return n.Next() }
	}

	i := 0
	for h := n; h != nil; h, i = iter(h), i+1 {
		if i >= len(expected) {
			a.T().Fatalf(""%s: extra expected node (%s)"", a.T().Name(), h.Text())
		}

		a.Equal(h.Text(), expected[i])
	}

	if i < len(expected) {
		a.T().Fatalf(""%s: mismatch node length expected (%s), but got nil"", a.T().Name(), expected[i])
	}
}

func TestNilNodeMethod(t *testing.T) {
	a := assert.New(t)

	var n *Node

	a.NoPanic(func() { n.loop(func(nn *Node) *Node { return nn.Next() }, func(n *Node) bool { return true }) })
	a.NoPanic(func() { n.IterPrev(func(n *Node) bool { return true }) })
	a.NoPanic(func() { n.IterNext(func(n *Node) bool { return true }) })
	a.NoPanic(func() { n.Prev() })
	a.NoPanic(func() { n.Next() })
	a.NoPanic(func() { n.InsertPrev(nil) })
	a.NoPanic(func() { n.InsertNext(nil) })
	a.NoPanic(func() { n.ReplacePrev(nil) })
	a.NoPanic(func() { n.ReplaceNext(nil) })
	a.NoPanic(func() { n.TakePrev() })
	a.NoPanic(func() { n.TakeNext() })
	a.NoPanic(func() { n.RemovePrev() })
	a.NoPanic(func() { n.RemoveNext() })
	a.NoPanic(func() { n.Line() })
	a.NoPanic(func() { n.Kind() })
	a.NoPanic(func() { n.SetKind(kind.Raw) })
	a.NoPanic(func() { n.Text() })
	a.NoPanic(func() { n.Description() })
	a.NoPanic(func() { n.Copy() })
	a.NoPanic(func() { n.Copy(true) })
	a.NoPanic(func() { n.setPrev(nil) })
	a.NoPanic(func() { n.setNext(nil) })
}

func TestNewNode(t *testing.T) {
	a := assert.New(t)

	head := NewNodes(10, ""1"", ""2"", ""3"", ""4"", ""5"", ""6"")
	tail := head.IterNext(func(n *Node) bool { return n.Next() != nil })
	head.IterNext(func(n *Node) bool {
		a.Equal(n.Line(), 10)
		return true
	})

	AssertNode(a, head, r, ""1"", ""2"", ""3"", ""4"", ""5"", ""6"")
	AssertNode(a, head, l, ""1"")
	AssertNode(a, tail, r, ""6"")
	AssertNode(a, tail, l, ""6"", ""5"", ""4"", ""3"", ""2"", ""1"")

}

func TestCopy(t *testing.T) {
	a := assert.New(t)

	head := NewNodes(10, ""1"", ""2"", ""3"", ""4"", ""5"", ""6"")
	tail := head.IterNext(func(n *Node) bool { return n.Next() != nil })
	n3 := head.Next().Next()

	println(""Copy"")

	n3c1 := n3.Copy()
	a.NotEqual(n3, n3c1)
	a.Nil(n3c1.Prev())
	a.Nil(n3c1.Next())

	println(""Copy(true)"")

	n3c := n3.Copy(true)
	cHead := n3c.IterPrev(func(n *Node) bool { return n.Prev() != nil })
	cTail := n3c.IterNext(func(n *Node) bool { return n.Next() != nil })

	println(""Assert A"")

	AssertNode(a, n3c, r, ""3"", ""4"", ""5"", ""6"")
	AssertNode(a, n3c, l, ""3"", ""2"", ""1"")

	AssertNode(a, cHead, l, ""1"")
	AssertNode(a, cHead, r, ""1"", ""2"", ""3"", ""4"", ""5"", ""6"")
	AssertNode(a, cTail, r, ""6"")
	AssertNode(a, cTail, l, ""6"", ""5"", ""4"", ""3"", ""2"", ""1"")

	println(""Assert B"")

	foo := head
	foo.IterNext(func(_ *Node) bool {
		a.NotEqual(head, cHead)
		a.Equal(head.Text(), cHead.Text())
		a.Equal(head.Kind(), cHead.Kind())
		a.Equal(head.Line(), cHead.Line())

		a.NotEqual(tail, cTail)
		a.Equal(tail.Text(), cTail.Text())
		a.Equal(tail.Kind(), cTail.Kind())
		a.Equal(tail.Line(), cTail.Line())

		head = head.Next()
		cHead = cHead.Next()

		tail = tail.Prev()
		cTail = cTail.Prev()

		return true
	})

}

func TestNodeTake(t *testing.T) {
	a := assert.New(t)

	// TakePrev
	a.NoPanic(func() {
		head, _ := list(""1"", ""2"", ""3"", ""4"", ""5"")
		AssertNode(a, head, r, ""1"", ""2"", ""3"", ""4"", ""5"")

		cur := head.Next().Next()
		a.Equal(cur.Text(), ""3"")

		took := cur.TakePrev()
		a.Equal(took.Text(), ""2"")
		a.Nil(took.Prev())
		a.Nil(took.Next())

		AssertNode(a, head, l, ""1"")
		AssertNode(a, head, r, ""1"", ""3"", ""4"", ""5"")
	})

	// TakeNext
	a.NoPanic(func() {
		head, _ := list(""1"", ""2"", ""3"", ""4"", ""5"")
		AssertNode(a, head, r, ""1"", ""2"", ""3"", ""4"", ""5"")

		cur := head.Next().Next()
		a.Equal(cur.Text(), ""3"")

		took := cur.TakeNext()
		a.Equal(took.Text(), ""4"")
		a.Nil(took.Prev())
		a.Nil(took.Next())

		AssertNode(a, head, l, ""1"")
		AssertNode(a, head, r, ""1"", ""2"", ""3"", ""5"")
	})
}

func TestNodeRemove(t *testing.T) {
	a := assert.New(t)

	// RemovePrev
	a.NoPanic(func() {
		head, _ := list(""1"", ""2"", ""3"", ""4"", ""5"")
		AssertNode(a, head, r, ""1"", ""2"", ""3"", ""4"", ""5"")

		cur := head.Next().Next()
		a.Equal(cur.Text(), ""3"")

		removed := cur.RemovePrev()

		AssertNode(a, removed, l, ""2"", ""1"")
		AssertNode(a, removed, r, ""2"")
		AssertNode(a, cur, l, ""3"")
		AssertNode(a, cur, r, ""3"", ""4"", ""5"")
		AssertNode(a, head, l, ""1"")
		AssertNode(a, head, r, ""1"", ""2"")
	})

	// RemoveNext
	a.NoPanic(func() {
		head, _ := list(""1"", ""2"", ""3"", ""4"", ""5"")
		AssertNode(a, head, r, ""1"", ""2"", ""3"", ""4"", ""5"")

		cur := head.Next().Next()
		a.Equal(cur.Text(), ""3"")

		removed := cur.RemoveNext()

		AssertNode(a, removed, l, ""4"")
		AssertNode(a, removed, r, ""4"", ""5"")
		AssertNode(a, cur, l, ""3"", ""2"", ""1"")
		AssertNode(a, cur, r, ""3"")
		AssertNode(a, head, l, ""1"")
		AssertNode(a, head, r, ""1"", ""2"", ""3"")
	})
}

func TestNodeInsert(t *testing.T) {
	a := assert.New(t)

	// InsertPrev
	a.NoPanic(func() {
		head, _ := list(""1"", ""2"", ""3"", ""4"", ""5"")
		head2, _ := list(""-1"", ""-2"", ""-3"", ""-4"", ""-5"")
		AssertNode(a, head, r, ""1"", ""2"", ""3"", ""4"", ""5"")
		AssertNode(a, head2, r, ""-1"", ""-2"", ""-3"", ""-4"", ""-5"")

		cur := head.Next().Next()
		a.Equal(cur.Text(), ""3"")

		nn := head2.Next().Next()
		a.Equal(nn.Text(), ""-3"")

		prev, next := cur.InsertPrev(nn)

		AssertNode(a, head, l, ""1"")
		AssertNode(a, head, r, ""1"", ""2"", ""-3"", ""3"", ""4"", ""5"")

		AssertNode(a, head2, l, ""-1"")
		AssertNode(a, head2, r, ""-1"", ""-2"")

		AssertNode(a, prev, l, ""-2"", ""-1"")
		AssertNode(a, prev, r, ""-2"")

		AssertNode(a, next, l, ""-4"")
		AssertNode(a, next, r, ""-4"", ""-5"")

	})

	// InsertNext
	a.NoPanic(func() {
		head, _ := list(""1"", ""2"", ""3"", ""4"", ""5"")
		head2, _ := list(""-1"", ""-2"", ""-3"", ""-4"", ""-5"")
		AssertNode(a, head, r, ""1"", ""2"", ""3"", ""4"", ""5"")
		AssertNode(a, head2, r, ""-1"", ""-2"", ""-3"", ""-4"", ""-5"")

		cur := head.Next().Next()
		a.Equal(cur.Text(), ""3"")

		nn := head2.Next().Next()
		a.Equal(nn.Text(), ""-3"")

		prev, next := cur.InsertNext(nn)

		AssertNode(a, head, l, ""1"")
		AssertNode(a, head, r, ""1"", ""2"", ""3"", ""-3"", ""4"", ""5"")

		AssertNode(a, head2, l, ""-1"")
		AssertNode(a, head2, r, ""-1"", ""-2"")

		AssertNode(a, prev, l, ""-2"", ""-1"")
		AssertNode(a, prev, r, ""-2"")

		AssertNode(a, next, l, ""-4"")
		AssertNode(a, next, r, ""-4"", ""-5"")

	})
}

func TestNodeReplace(t *testing.T) {
	a := assert.New(t)

	// ReplacePrev
	a.NoPanic(func() {
		head, _ := list(""1"", ""2"", ""3"", ""4"", ""5"")
		head2, _ := list(""-1"", ""-2"", ""-3"", ""-4"", ""-5"")
		AssertNode(a, head, r, ""1"", ""2"", ""3"", ""4"", ""5"")
		AssertNode(a, head2, r, ""-1"", ""-2"", ""-3"", ""-4"", ""-5"")

		cur := head.Next().Next()
		a.Equal(cur.Text(), ""3"")

		nn := head2.Next().Next()
		a.Equal(nn.Text(), ""-3"")

		prev, next := cur.ReplacePrev(nn)

		AssertNode(a, head, l, ""1"")
		AssertNode(a, head, r, ""1"", ""2"")

		AssertNode(a, head2, l, ""-1"")
		AssertNode(a, head2, r, ""-1"", ""-2"", ""-3"", ""3"", ""4"", ""5"")

		AssertNode(a, prev, l, ""2"", ""1"")
		AssertNode(a, prev, r, ""2"")

		AssertNode(a, next, l, ""-4"")
		AssertNode(a, next, r, ""-4"", ""-5"")

	})

	// ReplaceNext
	a.NoPanic(func() {
		head, _ := list(""1"", ""2"", ""3"", ""4"", ""5"")
		head2, _ := list(""-1"", ""-2"", ""-3"", ""-4"", ""-5"")
		AssertNode(a, head, r, ""1"", ""2"", ""3"", ""4"", ""5"")
		AssertNode(a, head2, r, ""-1"", ""-2"", ""-3"", ""-4"", ""-5"")

		cur := head.Next().Next()
		a.Equal(cur.Text(), ""3"")

		nn := head2.Next().Next()
		a.Equal(nn.Text(), ""-3"")

		prev, next := cur.ReplaceNext(nn)

		AssertNode(a, head, l, ""1"")
		AssertNode(a, head, r, ""1"", ""2"", ""3"", ""-3"", ""-4"", ""-5"")

		AssertNode(a, head2, l, ""-1"")
		AssertNode(a, head2, r, ""-1"", ""-2"")

		AssertNode(a, prev, l, ""-2"", ""-1"")
		AssertNode(a, prev, r, ""-2"")

		AssertNode(a, next, l, ""4"")
		AssertNode(a, next, r, ""4"", ""5"")

		n, _ := list(""1"", ""2"")
		oP, oN := n.ReplaceNext(n.Next())
		AssertNode(a, n, r, ""1"", ""2"")
		a.Nil(oP)
		a.Nil(oN)
	})
}

func TestIsolate(t *testing.T) {
	a := assert.New(t)
	head, tail := list(""1"", ""2"", ""3"")

	mid := head.Next()
	mid.Isolate()

	a.Nil(head.Prev())
	a.Nil(head.Next())

	a.Nil(tail.Prev())
	a.Nil(tail.Next())

	a.Nil(mid.Prev())
	a.Nil(mid.Next())
}

func TestCombine(t *testing.T) {
	a := assert.New(t)

	n1, _ := list(""1"")
	n2, _ := list(""2"")
	n3, _ := list(""3"")
	n4, _ := list(""4"", ""5"")
	n5 := n4.Next()

	n1.CombineNext(kind.Raw, n2, n3, n4)

	a.Equal(n1.Text(), ""1234"")
	AssertNode(a, n1, r, ""1234"")

	a.Nil(n5.Next())
	a.Nil(n5.Prev())

	var n *Node

	n = n.CombineNext(kind.Raw, n1, n5)
	a.Equal(n.Text(), ""12345"")
	AssertNode(a, n, r, ""12345"")
}
".
Proof. vm_compute. reflexivity. Qed.

(** /repo/scope_test.go *)
Definition repo_scope_test : list item := [(DOther $"package" (shown $" goast"), 1);
  (DOther $"import" (shown $" (
	""testing""

	""github.com/yanun0323/goast/assert""
)"), 1);
  (DFunc None $"TestParseScopeMethod" [] (Flat (PCons (Some $"t") (TWord $"*testing.T") PNil)) RNone (Some (shown $"
	a := assert.New(t)

	text := ""func (m *memberUseCase) Start(ctx context.Context, req *usecase.UpdatePhoneReq) (res *usecase.UpdatePhoneResp, err error) {}""
	sc, err := ParseScope(0, []byte(text))
	a.NoError(err)
	a.Equal(len(sc), 1)
	// sc[0].Node().DebugPrint(10)
")) None, 1);
  (DFunc None $"TestParseScopeStruct" [] (Flat (PCons (Some $"t") (TWord $"*testing.T") PNil)) RNone (Some (shown $"
	a := assert.New(t)

	text := ""type UpdatePhoneReq struct {\n\t\tPhone       *string `json:\""phone\"" binding:\""required\""`\n\t\tAreaCode    map[string]*Hello `json:\""area_code\"" binding:\""required\""`\n\t\tCaptchaCode []*Hello `json:\""code\"" binding:\""required\""`\n\t}\""""

	// n, err := extract([]byte(text))
	// a.NoError(err)
	// n.DebugPrint()
	// a.Nil(1)

	sc, err := ParseScope(0, []byte(text))
	a.NoError(err)
	a.Equal(len(sc), 1)

	// sc[0].Node().DebugPrint()
	// a.Nil(1)
")) None, 0)].
Example C75_repo_scope_test_ok : file_ok repo_scope_test.
Proof. apply (forallb_ok (fun i => decl_okb (fst i))); [intros [d k]; apply decl_okb_ok|]. vm_compute. reflexivity. Qed.
Example C75_repo_scope_test_text : file_text repo_scope_test = $"package goast

import (
	""testing""

	""github.com/yanun0323/goast/assert""
)

func TestParseScopeMethod(t *testing.T) {
	a := assert.New(t)

	text := ""func (m *memberUseCase) Start(ctx context.Context, req *usecase.UpdatePhoneReq) (res *usecase.UpdatePhoneResp, err error) {}""
	sc, err := ParseScope(0, []byte(text))
	a.NoError(err)
	a.Equal(len(sc), 1)
	// sc[0].Node().DebugPrint(10)
}

func TestParseScopeStruct(t *testing.T) {
	a := assert.New(t)

	text := ""type UpdatePhoneReq struct {\n\t\tPhone       *string `json:\""phone\"" binding:\""required\""`\n\t\tAreaCode    map[string]*Hello `json:\""area_code\"" binding:\""required\""`\n\t\tCaptchaCode []*Hello `json:\""code\"" binding:\""required\""`\n\t}\""""

	// n, err := extract([]byte(text))
	// a.NoError(err)
	// n.DebugPrint()
	// a.Nil(1)

	sc, err := ParseScope(0, []byte(text))
	a.NoError(err)
	a.Equal(len(sc), 1)

	// sc[0].Node().DebugPrint()
	// a.Nil(1)
}
".
Proof. vm_compute. reflexivity. Qed.

(** /repo/trie_test.go *)
Definition repo_trie_test : list item := [(DOther $"package" (shown $" goast"), 1);
  (DOther $"import" (shown $" (
	""testing""

	""github.com/yanun0323/goast/assert""
	""github.com/yanun0323/goast/charset""
	""github.com/yanun0323/goast/kind""
)"), 1);
  (DFunc None $"TestTrie" [] (Flat (PCons (Some $"t") (TWord $"*testing.T") PNil)) RNone (Some (shown $"
	a := assert.New(t)

	root := newTrie(map[string]*kind.Kind{})
	basic := kind.Basic
	_ = root.AddText(""any"", &basic)
	k, ok := root.FindText(""any"")
	a.Require(ok, ""find 'any'"")
	a.Require(k != nil && *k == kind.Basic, ""k 'any'"", k.PointerString())

	k, ok = root.FindText(""an"")
	a.Require(ok, ""find 'an'"")
	a.Require(k == nil, ""k 'an'"", k.PointerString())

	k, ok = root.FindText(""ann"")
	a.Require(!ok, ""find 'ann'"")
	a.Require(k == nil, ""k 'ann'"", k.PointerString())

	comment := kind.Comment
	_ = root.AddText(""ayy"", &comment)

	k, ok = root.FindText(""any"")
	a.Require(ok, ""find 'any' 2"")
	a.Require(k != nil && *k == kind.Basic, ""k 'any' 2"", k.PointerString())

	k, ok = root.FindText(""ayy"")
	a.Require(ok, ""find 'ayy'"")
	a.Require(k != nil && *k == kind.Comment, ""k 'ayy'"", k.PointerString())

	k, ok = root.FindByte([]byte(""ayy""))
	a.Require(ok, ""find 'ayy' 2"")
	a.Require(k != nil && *k == kind.Comment, ""k 'ayy' 2"", k.PointerString())
")) None, 1);
  (DFunc None $"TestTrieComment" [] (Flat (PCons (Some $"t") (TWord $"*testing.T") PNil)) RNone (Some (shown $"
	a := assert.New(t)

	root := newTrie(map[string]trie[bool]{
		""//"": newTrie(map[string]bool{""\n"": true}),
		""/*"": newTrie(map[string]bool{""*/"": true}),
	})

	comment := []byte(""//"")
	innerComment := []byte(""/*"")

	tr, ok := root.FindByte(comment)
	a.Require(ok, ""found comment ok"")
	a.Require(tr != nil, ""found comment trie"")

	tr, ok = root.FindByte(innerComment)
	a.Require(ok, ""found innerComment ok"")
	a.Require(tr != nil, ""found innerComment trie"")
")) None, 1);
  (DFunc None $"TestTrieFindReversely" [] (Flat (PCons (Some $"t") (TWord $"*testing.T") PNil)) RNone (Some (shown $"
	a := assert.New(t)

	tr := newTrie(charset.New(""123""))
	_, ok := tr.FindText(""123"")
	a.Require(ok, ""find 123"")

	_, ok = tr.FindTextReversely(""321"")
	a.Require(ok, ""find reversely 321"")

	_, ok = tr.FindByte([]byte(""123""))
	a.Require(ok, ""find byte 123"")

	_, ok = tr.FindByteReversely([]byte(""321""))
	a.Require(ok, ""find byte reversely 321"")
")) None, 0)].
Example C75_repo_trie_test_ok : file_ok repo_trie_test.
Proof. apply (forallb_ok (fun i => decl_okb (fst i))); [intros [d k]; apply decl_okb_ok|]. vm_compute. reflexivity. Qed.
Example C75_repo_trie_test_text : file_text repo_trie_test = $"package goast

import (
	""testing""

	""github.com/yanun0323/goast/assert""
	""github.com/yanun0323/goast/charset""
	""github.com/yanun0323/goast/kind""
)

func TestTrie(t *testing.T) {
	a := assert.New(t)

	root := newTrie(map[string]*kind.Kind{})
	basic := kind.Basic
	_ = root.AddText(""any"", &basic)
	k, ok := root.FindText(""any"")
	a.Require(ok, ""find 'any'"")
	a.Require(k != nil && *k == kind.Basic, ""k 'any'"", k.PointerString())

	k, ok = root.FindText(""an"")
	a.Require(ok, ""find 'an'"")
	a.Require(k == nil, ""k 'an'"", k.PointerString())

	k, ok = root.FindText(""ann"")
	a.Require(!ok, ""find 'ann'"")
	a.Require(k == nil, ""k 'ann'"", k.PointerString())

	comment := kind.Comment
	_ = root.AddText(""ayy"", &comment)

	k, ok = root.FindText(""any"")
	a.Require(ok, ""find 'any' 2"")
	a.Require(k != nil && *k == kind.Basic, ""k 'any' 2"", k.PointerString())

	k, ok = root.FindText(""ayy"")
	a.Require(ok, ""find 'ayy'"")
	a.Require(k != nil && *k == kind.Comment, ""k 'ayy'"", k.PointerString())

	k, ok = root.FindByte([]byte(""ayy""))
	a.Require(ok, ""find 'ayy' 2"")
	a.Require(k != nil && *k == kind.Comment, ""k 'ayy' 2"", k.PointerString())
}

func TestTrieComment(t *testing.T) {
	a := assert.New(t)

	root := newTrie(map[string]trie[bool]{
		""//"": newTrie(map[string]bool{""\n"": true}),
		""/*"": newTrie(map[string]bool{""*/"": true}),
	})

	comment := []byte(""//"")
	innerComment := []byte(""/*"")

	tr, ok := root.FindByte(comment)
	a.Require(ok, ""found comment ok"")
	a.Require(tr != nil, ""found comment trie"")

	tr, ok = root.FindByte(innerComment)
	a.Require(ok, ""found innerComment ok"")
	a.Require(tr != nil, ""found innerComment trie"")
}

func TestTrieFindReversely(t *testing.T) {
	a := assert.New(t)

	tr := newTrie(charset.New(""123""))
	_, ok := tr.FindText(""123"")
	a.Require(ok, ""find 123"")

	_, ok = tr.FindTextReversely(""321"")
	a.Require(ok, ""find reversely 321"")

	_, ok = tr.FindByte([]byte(""123""))
	a.Require(ok, ""find byte 123"")

	_, ok = tr.FindByteReversely([]byte(""321""))
	a.Require(ok, ""find byte reversely 321"")
}
".
Proof. vm_compute. reflexivity. Qed.

