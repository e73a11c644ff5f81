(** C98: searching a Hamming index that another thread appends to. *)
From Coq Require Import ZArith NArith Permutation.
From Verif Require Import PyBase PyFacts PyMore HammingDb Listening ListeningProofs ListeningProofs2 ListeningProofs3.
Theorem C98_disk :
  forall (code data : Type) (dist : code -> code -> N)
    (select : list N -> nat -> result (list nat)) (junk : id * code)
    (d : list (id * (code * data))) (b : code) (tr : list (label code data)) 
    (s : state code data),
  in_range select ->
  NoDup (map fst d) ->
  run dist select junk (opened junk d b) tr s ->
  alone tr -> disk s ++ match pending s with
                        | Some e => [e]
                        | None => []
                        end = d ++ appends tr.
Proof. exact (@disk_always). Qed.
Print Assumptions C98_disk.
Theorem C98_memory :
  forall (code data : Type) (dist : code -> code -> N)
    (select : list N -> nat -> result (list nat)) (junk : id * code)
    (d : list (id * (code * data))) (b : code) (tr : list (label code data)) 
    (s : state code data),
  in_range select ->
  NoDup (map fst d) ->
  run dist select junk (opened junk d b) tr s ->
  alone tr ->
  length (disk s) <= length (cells s) <= length (d ++ appends tr) /\
  Forall2
    (fun (e : id * (code * data)) (x : id * code) =>
     fst x = fst e /\ (snd x = fst (snd e) \/ In (snd x) (queries tr)))
    (firstn (length (cells s)) (d ++ appends tr)) (cells s) /\
  (forall k : id, In k (map fst (disk s)) -> In k (ids s)) /\
  (forall k : id, In k (ids s) -> In k (map fst (d ++ appends tr))) /\
  NoDup (map fst (d ++ appends tr)).
Proof. exact (@memory_always). Qed.
Print Assumptions C98_memory.
Theorem C98_memory_grows :
  forall (code data : Type) (dist : code -> code -> N)
    (select : list N -> nat -> result (list nat)) (junk : id * code) (s : state code data)
    (tr : list (label code data)) (s' : state code data),
  run dist select junk s tr s' -> exists more : list (id * code), cells s' = cells s ++ more.
Proof. exact (@memory_grows). Qed.
Print Assumptions C98_memory_grows.
Theorem C98_answers :
  forall (code data : Type) (dist : code -> code -> N)
    (select : list N -> nat -> result (list nat)) (junk : id * code)
    (d : list (id * (code * data))) (b : code) (tr : list (label code data)) 
    (s : state code data) (i : nat) (q : code) (n l : nat) (r : result (list data)),
  in_range select ->
  NoDup (map fst d) ->
  run dist select junk (opened junk d b) tr s ->
  alone tr ->
  threads s i = Answered q n l r ->
  In q (queries tr) /\
  ((exists ds : list data,
      r = Ok ds /\ incl ds (map (fun e : id * (code * data) => snd (snd e)) (d ++ appends tr))) \/
   r = Raise TypeError \/ (exists (sc : list N) (e : exn), select sc n = Raise e /\ r = Raise e)).
Proof. exact (@answers_always). Qed.
Print Assumptions C98_answers.
Theorem C98_never_stuck :
  forall (code data : Type) (dist : code -> code -> N)
    (select : list N -> nat -> result (list nat)) (junk : id * code)
    (d : list (id * (code * data))) (b : code) (tr : list (label code data)) 
    (s : state code data) (i : nat),
  in_range select ->
  NoDup (map fst d) ->
  run dist select junk (opened junk d b) tr s ->
  alone tr ->
  threads s i <> Idle ->
  exists s' : state code data,
    step dist select junk s Other s' /\ advance dist select junk s i = Some s'.
Proof. exact (@never_stuck). Qed.
Print Assumptions C98_never_stuck.
Theorem C98_undisturbed :
  forall (code data : Type) (dist : code -> code -> N)
    (select : list N -> nat -> result (list nat)) (junk : id * code) (d : list (entry code data))
    (b : code) (i : nat) (q : code) (n : nat),
  in_range select ->
  NoDup (map fst d) ->
  exists (tr : list (label code data)) (s : state code data),
    run dist select junk (opened junk d b) (Search q :: tr) s /\
    (forall x : label code data, In x tr -> x = Other) /\
    threads s i = Answered q n (length d) (search_for dist select q n d).
Proof. exact (@undisturbed). Qed.
Print Assumptions C98_undisturbed.
Theorem C98_locked_memory :
  forall (code data : Type) (dist : code -> code -> N)
    (select : list N -> nat -> result (list nat)) (junk : id * code)
    (d : list (id * (code * data))) (b : code) (tr : list (label code data)) 
    (s : state code data),
  in_range select ->
  NoDup (map fst d) ->
  locked_run dist select junk (opened junk d b) tr s ->
  cells s = map on_disk (firstn (length (cells s)) (d ++ appends tr)) /\
  length (disk s) <= length (cells s).
Proof. exact (@locked_memory). Qed.
Print Assumptions C98_locked_memory.
Theorem C98_locked_answers :
  forall (code data : Type) (dist : code -> code -> N)
    (select : list N -> nat -> result (list nat)) (junk : id * code)
    (d : list (id * (code * data))) (b : code) (tr : list (label code data)) 
    (s : state code data) (i : nat) (q : code) (n l : nat) (r : result (list data)),
  in_range select ->
  NoDup (map fst d) ->
  locked_run dist select junk (opened junk d b) tr s ->
  threads s i = Answered q n l r ->
  exists m : nat,
    l <= m <= length (d ++ appends tr) /\
    ((exists e : exn,
        select (scores dist q (firstn m (d ++ appends tr))) n = Raise e /\ r = Raise e) \/
     (exists idx : list nat,
        select (scores dist q (firstn m (d ++ appends tr))) n = Ok idx /\
        ((exists es : list (id * (code * data)),
            Forall2
              (fun (j : nat) (e : id * (code * data)) => nth_error (d ++ appends tr) j = Some e)
              idx es /\ r = Ok (map (fun e : id * (code * data) => snd (snd e)) es)) \/
         r = Raise TypeError /\ In (m - 1) idx /\ l < m))).
Proof. exact (@locked_answers). Qed.
Print Assumptions C98_locked_answers.
Theorem C98_wrong_query_refuted :
  forall (code data : Type) (dist : code -> code -> N)
    (select : list N -> nat -> result (list nat)) (junk : id * code) (d : list (entry code data))
    (b q : code) (n : nat) (k : id) (c : code) (x : data),
  in_range select ->
  NoDup (map fst d) ->
  ~ In k (map fst d) ->
  exists (tr : list (label code data)) (s : state code data),
    run dist select junk (opened junk d b) tr s /\
    alone tr /\
    queries tr = [q] /\
    appends tr = [(k, (c, x))] /\
    threads s 1 = Answered q n (length d) (search_for dist select c n d).
Proof. exact (@wrong_query_refuted). Qed.
Print Assumptions C98_wrong_query_refuted.
Theorem C98_wrong_code_refuted :
  forall (code data : Type) (dist : code -> code -> N)
    (select : list N -> nat -> result (list nat)) (junk : id * code) (d : list (entry code data))
    (b q : code) (k : id) (c : code) (x : data),
  in_range select ->
  NoDup (map fst d) ->
  ~ In k (map fst d) ->
  exists (tr : list (label code data)) (s : state code data),
    run dist select junk (opened junk d b) tr s /\
    alone tr /\
    queries tr = [q] /\
    appends tr = [(k, (c, x))] /\
    pending s = None /\
    disk s = d ++ [(k, (c, x))] /\
    cells s = map on_disk d ++ [(k, q)] /\ length (cells s) = length (disk s).
Proof. exact (@wrong_code_refuted). Qed.
Print Assumptions C98_wrong_code_refuted.
Theorem C98_uncommitted_refuted :
  forall (code data : Type) (dist : code -> code -> N)
    (select : list N -> nat -> result (list nat)) (junk : id * code) (d : list (entry code data))
    (b q : code) (n : nat) (k : id) (c : code) (x : data) (idx : list nat),
  in_range select ->
  NoDup (map fst d) ->
  ~ In k (map fst d) ->
  select (scores dist q (d ++ [(k, (c, x))])) n = Ok idx ->
  In (length d) idx ->
  exists (tr : list (label code data)) (s : state code data),
    run dist select junk (opened junk d b) tr s /\
    alone tr /\
    queries tr = [q] /\
    appends tr = [(k, (c, x))] /\ threads s 1 = Answered q n (length d) (Raise TypeError).
Proof. exact (@uncommitted_refuted). Qed.
Print Assumptions C98_uncommitted_refuted.
Theorem C98_lost_entry_refuted :
  forall (code data : Type) (dist : code -> code -> N)
    (select : list N -> nat -> result (list nat)) (junk : id * code) (d : list (entry code data))
    (b q : code) (n : nat) (k1 : id) (c1 : code) (x1 : data) (k2 : id) 
    (c2 : code) (x2 : data),
  NoDup (map fst d) ->
  ~ In k1 (map fst d) ->
  ~ In k2 (map fst d) ->
  k1 <> k2 ->
  exists (tr : list (label code data)) (s : state code data),
    run dist select junk (opened junk d b) tr s /\
    pending s = None /\
    disk s = d ++ [(k1, (c1, x1)); (k2, (c2, x2))] /\
    cells s = map on_disk d ++ [(k2, c2); junk] /\
    length (cells s) = length (disk s) /\
    threads s 0 = Idle /\ threads s 1 = Catching q n (S (length d)) [] /\ In k1 (ids s).
Proof. exact (@lost_entry_refuted). Qed.
Print Assumptions C98_lost_entry_refuted.

