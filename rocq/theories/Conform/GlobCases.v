(** * GlobCases.v: the cases of path/match_test.go of Go 1.12. *)
From Verif Require Import Model.Go Model.Glob.
Definition cases : list (string * string * option bool) := [
  ("abc", "abc", Some true);
  ("*", "abc", Some true);
  ("*c", "abc", Some true);
  ("a*", "a", Some true);
  ("a*", "abc", Some true);
  ("a*", "ab/c", Some false);
  ("a*/b", "abc/b", Some true);
  ("a*/b", "a/c/b", Some false);
  ("a*b*c*d*e*/f", "axbxcxdxe/f", Some true);
  ("a*b*c*d*e*/f", "axbxcxdxexxx/f", Some true);
  ("a*b*c*d*e*/f", "axbxcxdxe/xxx/f", Some false);
  ("a*b*c*d*e*/f", "axbxcxdxexxx/fff", Some false);
  ("a*b?c*x", "abxbbxdbxebxczzx", Some true);
  ("a*b?c*x", "abxbbxdbxebxczzy", Some false);
  ("ab[c]", "abc", Some true);
  ("ab[b-d]", "abc", Some true);
  ("ab[e-g]", "abc", Some false);
  ("ab[^c]", "abc", Some false);
  ("ab[^b-d]", "abc", Some false);
  ("ab[^e-g]", "abc", Some true);
  ("a\*b", "a*b", Some true);
  ("a\*b", "ab", Some false);
  ("a?b", "a☺b", Some true);
  ("a[^a]b", "a☺b", Some true);
  ("a???b", "a☺b", Some false);
  ("a[^a][^a][^a]b", "a☺b", Some false);
  ("[a-ζ]*", "α", Some true);
  ("*[a-ζ]", "A", Some false);
  ("a?b", "a/b", Some false);
  ("a*b", "a/b", Some false);
  ("[\]a]", "]", Some true);
  ("[\-]", "-", Some true);
  ("[x\-]", "x", Some true);
  ("[x\-]", "-", Some true);
  ("[x\-]", "z", Some false);
  ("[\-x]", "x", Some true);
  ("[\-x]", "-", Some true);
  ("[\-x]", "a", Some false);
  ("[]a]", "]", None);
  ("[-]", "-", None);
  ("[x-]", "x", None);
  ("[x-]", "-", None);
  ("[x-]", "z", None);
  ("[-x]", "x", None);
  ("[-x]", "-", None);
  ("[-x]", "a", None);
  ("\", "a", None);
  ("[a-b-c]", "a", None);
  ("[", "a", None);
  ("[^", "a", None);
  ("[^bc", "a", None);
  ("a[", "a", Some false);
  ("a[", "ab", None);
  ("*x", "xxx", Some true)].
Example match_test : map (fun c => globMatch (fst (fst c)) (snd (fst c))) cases = map snd cases.
Proof. vm_compute. reflexivity. Qed.
