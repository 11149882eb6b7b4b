(* The test cases of tests/cheap/grammar, run through the model of the grammar and of the
   converters: the expected results of the project's own tests. *)
From Verif Require Import PyBase LineModel DateModel RefModel TreeModel StructModel SemModel GramModel PegModel.
Local Open Scope Z_scope.

(* GrammaticalAnalyzer().analyze(s): element_references and act_references *)
Definition run_references (s : pystr) : option (list outgoing_reference * list outgoing_reference) :=
  match grammar_parse s with
  | Some t =>
      match (l <- convert_depth_first t ;; a <- element_references l ;; b <- act_references l ;; Ok (a, b)) with
      | Ok x => Some x
      | Err _ => None
      end
  | None => None
  end.
(* tests/cheap/grammar/test_references.py:571-583: the string of marks *)
Fixpoint set_chr (n : nat) (c : N) (s : pystr) : pystr :=
  match n, s with
  | O, _ :: t => c :: t
  | S n, x :: t => x :: set_chr n c t
  | _, [] => []
  end.
Definition mark (a z : N) (s : pystr) (o : outgoing_reference) : pystr :=
  set_chr (Z.to_nat (or_end o - 1)) z (set_chr (Z.to_nat (or_start o)) a s).
Definition marks (text : pystr) (x : list outgoing_reference * list outgoing_reference) : pystr :=
  fold_left (mark 91 93) (snd x) (fold_left (mark 60 62) (fst x) (map (fun _ => 32%N) text)).

(** * test_references.py *)

Example fidelity_reference_1 :
  let text := u8 "A hegyközségekről szóló 2012. évi CCXIX. törvény (a továbbiakban: Hktv.) 28. §-a helyébe a következő rendelkezés lép:" in
  option_map (fun x => (map or_reference (fst x), map (fun o => r_act (or_reference o)) (snd x), marks text x))
    (run_references text) =
  Some ([(mk_ref (Some (u8 "2012. évi CCXIX. törvény")) (RId (u8 "28")) RNone RNone RNone)], [Some (u8 "2012. évi CCXIX. törvény")], u8 "                        [                      ]                         <     >                                     ").
Proof. vm_compute; reflexivity. Qed.

Example fidelity_reference_2 :
  let text := u8 "A Magyarország 2013. évi központi költségvetéséről szóló 2012. évi CCIV. törvény 44/B. és 44/C. §-a helyébe a következő rendelkezés lép:" in
  option_map (fun x => (map or_reference (fst x), map (fun o => r_act (or_reference o)) (snd x), marks text x))
    (run_references text) =
  Some ([(mk_ref (Some (u8 "2012. évi CCIV. törvény")) (RRange (u8 "44/B") (u8 "44/C")) RNone RNone RNone)], [Some (u8 "2012. évi CCIV. törvény")], u8 "                                                         [                     ] <                >                                     ").
Proof. vm_compute; reflexivity. Qed.

Example fidelity_reference_3 :
  let text := u8 "A pénzügyi tranzakciós illetékről szóló 2012. évi CXVI. törvény (a továbbiakban: Pti. törvény) 7. § (1) bekezdése helyébe a következő rendelkezés lép:" in
  option_map (fun x => (map or_reference (fst x), map (fun o => r_act (or_reference o)) (snd x), marks text x))
    (run_references text) =
  Some ([(mk_ref (Some (u8 "2012. évi CXVI. törvény")) (RId (u8 "7")) (RId (u8 "1")) RNone RNone)], [Some (u8 "2012. évi CXVI. törvény")], u8 "                                        [                     ]                                <                >                                     ").
Proof. vm_compute; reflexivity. Qed.

Example fidelity_reference_4 :
  let text := u8 "Ez a törvény – a (2) bekezdésben foglalt kivétellel – 2013. augusztus 1-jén lép hatályba." in
  option_map (fun x => (map or_reference (fst x), map (fun o => r_act (or_reference o)) (snd x), marks text x))
    (run_references text) =
  Some ([(mk_ref None RNone (RId (u8 "2")) RNone RNone)], [], u8 "                 <             >                                                         ").
Proof. vm_compute; reflexivity. Qed.

Example fidelity_reference_5 :
  let text := u8 "A 2006. évi X. törvény 25 §-a." in
  option_map (fun x => (map or_reference (fst x), map (fun o => r_act (or_reference o)) (snd x), marks text x))
    (run_references text) =
  Some ([], [Some (u8 "2006. évi X. törvény")], u8 "  [                  ]        ").
Proof. vm_compute; reflexivity. Qed.

Example fidelity_reference_6 :
  let text := u8 "E § (2) bekezdés d) pontjában foglaltaktól eltérni tilos." in
  option_map (fun x => (map or_reference (fst x), map (fun o => r_act (or_reference o)) (snd x), marks text x))
    (run_references text) =
  Some ([(mk_ref None RNone (RId (u8 "2")) (RId (u8 "d")) RNone)], [], u8 "    <                       >                            ").
Proof. vm_compute; reflexivity. Qed.

Example fidelity_reference_7 :
  let text := u8 "A szabálysértésekről és egyebekről szóló 2012. évi I. törvény (a továbbiakban: Szabs. tv.) 29. § (2) bekezdés e) pontja helyébe a következő rendelkezés lép:" in
  option_map (fun x => (map or_reference (fst x), map (fun o => r_act (or_reference o)) (snd x), marks text x))
    (run_references text) =
  Some ([(mk_ref (Some (u8 "2012. évi I. törvény")) (RId (u8 "29")) (RId (u8 "2")) (RId (u8 "e")) RNone)], [Some (u8 "2012. évi I. törvény")], u8 "                                         [                  ]                              <                          >                                     ").
Proof. vm_compute; reflexivity. Qed.

Example fidelity_reference_8 :
  let text := u8 "A (2) bekezdés szerinti hitelezõkkel szemben a kényszerértékesítési kvótára vonatkozó szabályok (6–8. §) és a (2) bekezdés megsértése esetén:" in
  option_map (fun x => (map or_reference (fst x), map (fun o => r_act (or_reference o)) (snd x), marks text x))
    (run_references text) =
  Some ([(mk_ref None RNone (RId (u8 "2")) RNone RNone); (mk_ref None (RRange (u8 "6") (u8 "8")) RNone RNone RNone); (mk_ref None RNone (RId (u8 "2")) RNone RNone)], [], u8 "  <          >                                                                                   <    >       <          >                   ").
Proof. vm_compute; reflexivity. Qed.

Example fidelity_reference_9 :
  let text := u8 "Ha az (1) és a (2) bekezdésben meghatározott előzetes." in
  option_map (fun x => (map or_reference (fst x), map (fun o => r_act (or_reference o)) (snd x), marks text x))
    (run_references text) =
  Some ([(mk_ref None RNone (RRange (u8 "1") (u8 "2")) RNone RNone)], [], u8 "      <                      >                        ").
Proof. vm_compute; reflexivity. Qed.

Example fidelity_reference_10 :
  let text := u8 "Ha létrejött adás-vételi szerződést a 23. § (4) bekezdésének a) vagy b) pontjában foglalt esetek fennállása alapján jóváhagyja." in
  option_map (fun x => (map or_reference (fst x), map (fun o => r_act (or_reference o)) (snd x), marks text x))
    (run_references text) =
  Some ([(mk_ref None (RId (u8 "23")) (RId (u8 "4")) (RRange (u8 "a") (u8 "b")) RNone)], [], u8 "                                      <                                         >                                              ").
Proof. vm_compute; reflexivity. Qed.

Example fidelity_reference_11 :
  let text := u8 "Az (1) bekezdés b) pont bb) alpontban meghatározott esetben a tilos a hasznosítás." in
  option_map (fun x => (map or_reference (fst x), map (fun o => r_act (or_reference o)) (snd x), marks text x))
    (run_references text) =
  Some ([(mk_ref None RNone (RId (u8 "1")) (RId (u8 "b")) (RId (u8 "bb")))], [], u8 "   <                                >                                             ").
Proof. vm_compute; reflexivity. Qed.

Example fidelity_reference_12 :
  let text := u8 "A Gyvt. 5. §-a a következő ny) ponttal egészül ki:" in
  option_map (fun x => (map or_reference (fst x), map (fun o => r_act (or_reference o)) (snd x), marks text x))
    (run_references text) =
  Some ([(mk_ref (Some (u8 "Gyvt.")) (RId (u8 "5")) RNone (RId (u8 "ny")) RNone)], [Some (u8 "Gyvt.")], u8 "  [   ] <                            >            ").
Proof. vm_compute; reflexivity. Qed.

Example fidelity_reference_13 :
  let text := u8 "Az Eht. 188. §-a a következő 31/a. ponttal egészül ki:" in
  option_map (fun x => (map or_reference (fst x), map (fun o => r_act (or_reference o)) (snd x), marks text x))
    (run_references text) =
  Some ([(mk_ref (Some (u8 "Eht.")) (RId (u8 "188")) RNone (RId (u8 "31/a")) RNone)], [Some (u8 "Eht.")], u8 "   [  ] <                                >            ").
Proof. vm_compute; reflexivity. Qed.

Example fidelity_reference_14 :
  let text := u8 "A Gyvt. 69/D. §-a a következő (1a) és (1b) bekezdéssel egészül ki:" in
  option_map (fun x => (map or_reference (fst x), map (fun o => r_act (or_reference o)) (snd x), marks text x))
    (run_references text) =
  Some ([(mk_ref (Some (u8 "Gyvt.")) (RId (u8 "69/D")) (RRange (u8 "1a") (u8 "1b")) RNone RNone)], [Some (u8 "Gyvt.")], u8 "  [   ] <                                            >            ").
Proof. vm_compute; reflexivity. Qed.

Example fidelity_reference_15 :
  let text := u8 "Az alpontok rendjéről szóló 2111. évi LXXV. törvény (a továbbiakban: Tv.) 1. § (1) bekezdés 1. pont c) alpontja helyébe a következő rendelkezés lép:" in
  option_map (fun x => (map or_reference (fst x), map (fun o => r_act (or_reference o)) (snd x), marks text x))
    (run_references text) =
  Some ([(mk_ref (Some (u8 "2111. évi LXXV. törvény")) (RId (u8 "1")) (RId (u8 "1")) (RId (u8 "1")) (RId (u8 "c")))], [Some (u8 "2111. évi LXXV. törvény")], u8 "                            [                     ]                       <                                   >                                     ").
Proof. vm_compute; reflexivity. Qed.

Example fidelity_reference_16 :
  let text := u8 "Amely a Tbj. 4. § k) pont 2. alpontja alapján járulékalapot képez." in
  option_map (fun x => (map or_reference (fst x), map (fun o => r_act (or_reference o)) (snd x), marks text x))
    (run_references text) =
  Some ([(mk_ref (Some (u8 "Tbj.")) (RId (u8 "4")) RNone (RId (u8 "k")) (RId (u8 "2")))], [Some (u8 "Tbj.")], u8 "        [  ] <                      >                             ").
Proof. vm_compute; reflexivity. Qed.

Example fidelity_reference_17 :
  let text := u8 "Az Eht. 188. §-a a következő 31/a. ponttal egészül ki. Az Eht. 188. §-a a következő 31/a. ponttal egészül ki." in
  option_map (fun x => (map or_reference (fst x), map (fun o => r_act (or_reference o)) (snd x), marks text x))
    (run_references text) =
  Some ([(mk_ref (Some (u8 "Eht.")) (RId (u8 "188")) RNone RNone RNone); (mk_ref None RNone RNone (RId (u8 "31/a")) RNone); (mk_ref (Some (u8 "Eht.")) (RId (u8 "188")) RNone RNone RNone); (mk_ref None RNone RNone (RId (u8 "31/a")) RNone)], [Some (u8 "Eht."); Some (u8 "Eht.")], u8 "   [  ] <      >             <           >                [  ] <      >             <           >            ").
Proof. vm_compute; reflexivity. Qed.

Example fidelity_reference_18 :
  let text := u8 "A légiközlekedésről szóló 1995. évi XCVII. törvény 71. §-a a következő 3a. ponttal egészül ki:" in
  option_map (fun x => (map or_reference (fst x), map (fun o => r_act (or_reference o)) (snd x), marks text x))
    (run_references text) =
  Some ([(mk_ref (Some (u8 "1995. évi XCVII. törvény")) (RId (u8 "71")) RNone (RId (u8 "3a")) RNone)], [Some (u8 "1995. évi XCVII. törvény")], u8 "                          [                      ] <                             >            ").
Proof. vm_compute; reflexivity. Qed.

Example fidelity_reference_19 :
  let text := u8 "A (6) bekezdés szerinti adóalap csökkenti a mezőgazdasági őstermelőként az 1. § (1) és (5) bekezdés f)–g) pont szerint fennálló adókötelezettség alapját." in
  option_map (fun x => (map or_reference (fst x), map (fun o => r_act (or_reference o)) (snd x), marks text x))
    (run_references text) =
  Some ([(mk_ref None RNone (RId (u8 "6")) RNone RNone); (mk_ref None (RId (u8 "1")) (RId (u8 "1")) RNone RNone); (mk_ref None (RId (u8 "1")) (RId (u8 "5")) (RRange (u8 "f") (u8 "g")) RNone)], [], u8 "  <          >                                                             <      >    <                     >                                           ").
Proof. vm_compute; reflexivity. Qed.

Example fidelity_reference_20 :
  let text := u8 "A temetőkről és a temetkezésről szóló 1999. évi XLIII. törvény (a továbbiakban: temetőkről és a temetkezésről szóló törvény) 3. §-a a következő k) ponttal egészül ki:" in
  option_map (fun x => (map or_reference (fst x), map (fun o => r_act (or_reference o)) (snd x), marks text x))
    (run_references text) =
  Some ([(mk_ref (Some (u8 "1999. évi XLIII. törvény")) (RId (u8 "3")) RNone (RId (u8 "k")) RNone)], [Some (u8 "1999. évi XLIII. törvény")], u8 "                                      [                      ]                                                               <                           >            ").
Proof. vm_compute; reflexivity. Qed.

Example fidelity_reference_21 :
  let text := u8 "A víziközmű-szolgáltatásról szóló 2011. évi CCIX. törvény (a továbbiakban: Víziközmű tv.) 2. §-a a következő 31. ponttal egészül ki:" in
  option_map (fun x => (map or_reference (fst x), map (fun o => r_act (or_reference o)) (snd x), marks text x))
    (run_references text) =
  Some ([(mk_ref (Some (u8 "2011. évi CCIX. törvény")) (RId (u8 "2")) RNone (RId (u8 "31")) RNone)], [Some (u8 "2011. évi CCIX. törvény")], u8 "                                  [                     ]                                 <                            >            ").
Proof. vm_compute; reflexivity. Qed.

Example fidelity_reference_22 :
  let text := u8 "A Víziközmű tv. 63. §-a a következő (5)–(7) bekezdéssel egészül ki:" in
  option_map (fun x => (map or_reference (fst x), map (fun o => r_act (or_reference o)) (snd x), marks text x))
    (run_references text) =
  Some ([(mk_ref (Some (u8 "Víziközmű tv.")) (RId (u8 "63")) (RRange (u8 "5") (u8 "7")) RNone RNone)], [Some (u8 "Víziközmű tv.")], u8 "  [           ] <                                     >            ").
Proof. vm_compute; reflexivity. Qed.

Example fidelity_reference_23 :
  let text := u8 "Az európai részvénytársaságról szóló 2004. évi XLV. törvény (a továbbiakban: Eurt.tv.) 2. §-a helyébe a következő rendelkezés lép:" in
  option_map (fun x => (map or_reference (fst x), map (fun o => r_act (or_reference o)) (snd x), marks text x))
    (run_references text) =
  Some ([(mk_ref (Some (u8 "2004. évi XLV. törvény")) (RId (u8 "2")) RNone RNone RNone)], [Some (u8 "2004. évi XLV. törvény")], u8 "                                     [                    ]                            <    >                                     ").
Proof. vm_compute; reflexivity. Qed.

Example fidelity_reference_24 :
  let text := u8 "A szövetkezetekről szóló 2006. évi X. törvény (a továbbiakban: Szövtv.) I. és II. Fejezete helyébe a következő I. és II. Fejezet lép:" in
  option_map (fun x => (map or_reference (fst x), map (fun o => r_act (or_reference o)) (snd x), marks text x))
    (run_references text) =
  Some ([], [Some (u8 "2006. évi X. törvény")], u8 "                         [                  ]                                                                                        ").
Proof. vm_compute; reflexivity. Qed.

Example fidelity_reference_25 :
  let text := u8 "A Ctv. I. Fejezete a következő 6–8. címmel egészül ki:" in
  option_map (fun x => (map or_reference (fst x), map (fun o => r_act (or_reference o)) (snd x), marks text x))
    (run_references text) =
  Some ([], [Some (u8 "Ctv.")], u8 "  [  ]                                                ").
Proof. vm_compute; reflexivity. Qed.

Example fidelity_reference_26 :
  let text := u8 "A Ctv. 1–3. számú melléklete az 1. melléklet szerint módosul." in
  option_map (fun x => (map or_reference (fst x), map (fun o => r_act (or_reference o)) (snd x), marks text x))
    (run_references text) =
  Some ([], [Some (u8 "Ctv.")], u8 "  [  ]                                                       ").
Proof. vm_compute; reflexivity. Qed.

Example fidelity_reference_27 :
  let text := u8 "A Cnytv. a következő 5/A. alcímmel, valamint 18. §-sal és 18/A. §-sal egészül ki:" in
  option_map (fun x => (map or_reference (fst x), map (fun o => r_act (or_reference o)) (snd x), marks text x))
    (run_references text) =
  Some ([(mk_ref None (RId (u8 "18")) RNone RNone RNone); (mk_ref None (RId (u8 "18/A")) RNone RNone RNone)], [Some (u8 "Cnytv.")], u8 "  [    ]                                     <       >    <         >            ").
Proof. vm_compute; reflexivity. Qed.

Example fidelity_reference_28 :
  let text := u8 "Az Flt. 30. § (1) bekezdés a) pontjában az „a 25. § (1) bekezdésének c)–d) pontjában” szövegrész helyébe az „a 25. § (1) bekezdésének d) pontjában” szöveg lép." in
  option_map (fun x => (map or_reference (fst x), map (fun o => r_act (or_reference o)) (snd x), marks text x))
    (run_references text) =
  Some ([(mk_ref (Some (u8 "Flt.")) (RId (u8 "30")) (RId (u8 "1")) (RId (u8 "a")) RNone)], [Some (u8 "Flt.")], u8 "   [  ] <                             >                                                                                                                        ").
Proof. vm_compute; reflexivity. Qed.

Example fidelity_reference_29 :
  let text := u8 "A Ptk. 3:222. § (1) bekezdése a következő szöveggel lép hatályba:" in
  option_map (fun x => (map or_reference (fst x), map (fun o => r_act (or_reference o)) (snd x), marks text x))
    (run_references text) =
  Some ([(mk_ref (Some (u8 "Ptk.")) (RId (u8 "3:222")) (RId (u8 "1")) RNone RNone)], [Some (u8 "Ptk.")], u8 "  [  ] <                    >                                    ").
Proof. vm_compute; reflexivity. Qed.

Example fidelity_reference_30 :
  let text := u8 "A jogi személynek a Ptk. rendelkezéseit a (2) bekezdés szerinti döntéstől, ennek hiányában 2015. március 15-étől kell alkalmaznia(ezen alcím alkalmazásában a továbbiakban együtt: a Ptk. rendelkezéseivel összhangban álló továbbműködés időpontja)." in
  option_map (fun x => (map or_reference (fst x), map (fun o => r_act (or_reference o)) (snd x), marks text x))
    (run_references text) =
  Some ([(mk_ref None RNone (RId (u8 "2")) RNone RNone)], [Some (u8 "Ptk."); Some (u8 "Ptk.")], u8 "                    [  ]                  <          >                                                                                                                               [  ]                                                            ").
Proof. vm_compute; reflexivity. Qed.

Example fidelity_reference_31 :
  let text := u8 "A tesztekről szóló 2337. évi I. törvény nem létezik. Egy második mondattól meg parse-olni sem lehet." in
  option_map (fun x => (map or_reference (fst x), map (fun o => r_act (or_reference o)) (snd x), marks text x))
    (run_references text) =
  Some ([], [Some (u8 "2337. évi I. törvény")], u8 "                   [                  ]                                                             ").
Proof. vm_compute; reflexivity. Qed.

Example fidelity_reference_32 :
  let text := u8 "E törvény rendelkezéseit a Polgári Törvénykönyvről szóló 2013. évi V. törvénnyel (a továbbiakban: Ptk.) együtt kell alkalmazni." in
  option_map (fun x => (map or_reference (fst x), map (fun o => r_act (or_reference o)) (snd x), marks text x))
    (run_references text) =
  Some ([], [Some (u8 "2013. évi V. törvény")], u8 "                                                         [                     ]                                               ").
Proof. vm_compute; reflexivity. Qed.

Example fidelity_reference_33 :
  let text := u8 "Hatályát veszti a Tv. 8/A. §–8/B. §-a, 16/A. §–16/B. §-a, és 17/A. § (1) és (3) bekezdése." in
  option_map (fun x => (map or_reference (fst x), map (fun o => r_act (or_reference o)) (snd x), marks text x))
    (run_references text) =
  Some ([(mk_ref (Some (u8 "Tv.")) (RRange (u8 "8/A") (u8 "8/B")) RNone RNone RNone); (mk_ref (Some (u8 "Tv.")) (RRange (u8 "16/A") (u8 "16/B")) RNone RNone RNone); (mk_ref (Some (u8 "Tv.")) (RId (u8 "17/A")) (RId (u8 "1")) RNone RNone); (mk_ref (Some (u8 "Tv.")) (RId (u8 "17/A")) (RId (u8 "3")) RNone RNone)], [Some (u8 "Tv.")], u8 "                  [ ] <             >  <               >     <         >    <           > ").
Proof. vm_compute; reflexivity. Qed.

Example fidelity_reference_34 :
  let text := u8 "Hatályát veszti az ingatlan-nyilvántartásról szóló 1997. évi CXLI. törvény 16/A. §-a és 91. § (2) bekezdése." in
  option_map (fun x => (map or_reference (fst x), map (fun o => r_act (or_reference o)) (snd x), marks text x))
    (run_references text) =
  Some ([(mk_ref (Some (u8 "1997. évi CXLI. törvény")) (RId (u8 "16/A")) RNone RNone RNone); (mk_ref (Some (u8 "1997. évi CXLI. törvény")) (RId (u8 "91")) (RId (u8 "2")) RNone RNone)], [Some (u8 "1997. évi CXLI. törvény")], u8 "                                                   [                     ] <       >    <                 > ").
Proof. vm_compute; reflexivity. Qed.

Example fidelity_reference_35 :
  let text := u8 "A polgári törvénykönyvről szóló 2013. évi V. tv. 3:319. § (5) bekezdése a következő szöveggel lép hatályba:" in
  option_map (fun x => (map or_reference (fst x), map (fun o => r_act (or_reference o)) (snd x), marks text x))
    (run_references text) =
  Some ([(mk_ref (Some (u8 "2013. évi V. törvény")) (RId (u8 "3:319")) (RId (u8 "5")) RNone RNone)], [Some (u8 "2013. évi V. törvény")], u8 "                                [              ] <                    >                                    ").
Proof. vm_compute; reflexivity. Qed.

Example fidelity_reference_36 :
  let text := u8 "A Btk. 283. § (2) és (2a) bekezdése helyébe" in
  option_map (fun x => (map or_reference (fst x), map (fun o => r_act (or_reference o)) (snd x), marks text x))
    (run_references text) =
  Some ([(mk_ref (Some (u8 "Btk.")) (RId (u8 "283")) (RRange (u8 "2") (u8 "2a")) RNone RNone)], [Some (u8 "Btk.")], u8 "  [  ] <                          >        ").
Proof. vm_compute; reflexivity. Qed.

Example fidelity_reference_37 :
  let text := u8 "A Büntető Törvénykönyvről szóló 1978. évi IV. törvény (a továbbiakban: 1978. évi IV. törvény) 316. § (4) bekezdése csak úgy." in
  option_map (fun x => (map or_reference (fst x), map (fun o => r_act (or_reference o)) (snd x), marks text x))
    (run_references text) =
  Some ([(mk_ref (Some (u8 "1978. évi IV. törvény")) (RId (u8 "316")) (RId (u8 "4")) RNone RNone)], [Some (u8 "1978. évi IV. törvény")], u8 "                                [                   ]                                         <                  >          ").
Proof. vm_compute; reflexivity. Qed.

Example fidelity_reference_38 :
  let text := u8 "A Büntető Törvénykönyvről szóló 1978. évi IV. törvény (a továbbiakban: 1978. évi IV. törvény) 316. § (4) bekezdése a következő c) ponttal egészül ki:" in
  option_map (fun x => (map or_reference (fst x), map (fun o => r_act (or_reference o)) (snd x), marks text x))
    (run_references text) =
  Some ([(mk_ref (Some (u8 "1978. évi IV. törvény")) (RId (u8 "316")) (RId (u8 "4")) (RId (u8 "c")) RNone)], [Some (u8 "1978. évi IV. törvény")], u8 "                                [                   ]                                         <                                         >            ").
Proof. vm_compute; reflexivity. Qed.

Example fidelity_reference_39 :
  let text := u8 "Hatályát veszti a Btk. „Kényszermunka” című alcíme." in
  option_map (fun x => (map or_reference (fst x), map (fun o => r_act (or_reference o)) (snd x), marks text x))
    (run_references text) =
  Some ([], [Some (u8 "Btk.")], u8 "                  [  ]                             ").
Proof. vm_compute; reflexivity. Qed.

Example fidelity_reference_40 :
  let text := u8 "Az 1–30. §, a 31. § (1) és (3)−(5) bekezdése, a 32–34. §, a 35. § (1) és (3)–(5) bekezdése, a 36. §, a 37. § (1) és (3)–(5) bekezdése, a 38. §, a 39. § (1) és (3)–(5) bekezdése, a 40–59. §, a 60. § (1) bekezdése, a 61. § (1), (2) és (7) bekezdése, 62–66. §, a 67. § (5) bekezdés a)–d) és g) pontja, a 68. § (1)–(3), (10) és (12)–(15) bekezdése, a 68. § (17) bekezdés 1., 2., 4., 6–8., 10–13., 15., 16., 18–20. és 25. pontja, a 69–76. §, a 77. § (3) és (4) bekezdése, a 78–82. §, a 181. és 182. §, a 192. § a)–b), valamint d)–n) pontja és a 193. § 2014. március 15-én lép hatályba." in
  option_map (fun x => (map or_reference (fst x), map (fun o => r_act (or_reference o)) (snd x), marks text x))
    (run_references text) =
  Some ([(mk_ref None (RRange (u8 "1") (u8 "30")) RNone RNone RNone); (mk_ref None (RId (u8 "31")) (RId (u8 "1")) RNone RNone); (mk_ref None (RId (u8 "31")) (RRange (u8 "3") (u8 "5")) RNone RNone); (mk_ref None (RRange (u8 "32") (u8 "34")) RNone RNone RNone); (mk_ref None (RId (u8 "35")) (RId (u8 "1")) RNone RNone); (mk_ref None (RId (u8 "35")) (RRange (u8 "3") (u8 "5")) RNone RNone); (mk_ref None (RId (u8 "36")) RNone RNone RNone); (mk_ref None (RId (u8 "37")) (RId (u8 "1")) RNone RNone); (mk_ref None (RId (u8 "37")) (RRange (u8 "3") (u8 "5")) RNone RNone); (mk_ref None (RId (u8 "38")) RNone RNone RNone); (mk_ref None (RId (u8 "39")) (RId (u8 "1")) RNone RNone); (mk_ref None (RId (u8 "39")) (RRange (u8 "3") (u8 "5")) RNone RNone); (mk_ref None (RRange (u8 "40") (u8 "59")) RNone RNone RNone); (mk_ref None (RId (u8 "60")) (RId (u8 "1")) RNone RNone); (mk_ref None (RId (u8 "61")) (RRange (u8 "1") (u8 "2")) RNone RNone); (mk_ref None (RId (u8 "61")) (RId (u8 "7")) RNone RNone); (mk_ref None (RRange (u8 "62") (u8 "66")) RNone RNone RNone); (mk_ref None (RId (u8 "67")) (RId (u8 "5")) (RRange (u8 "a") (u8 "d")) RNone); (mk_ref None (RId (u8 "67")) (RId (u8 "5")) (RId (u8 "g")) RNone); (mk_ref None (RId (u8 "68")) (RRange (u8 "1") (u8 "3")) RNone RNone); (mk_ref None (RId (u8 "68")) (RId (u8 "10")) RNone RNone); (mk_ref None (RId (u8 "68")) (RRange (u8 "12") (u8 "15")) RNone RNone); (mk_ref None (RId (u8 "68")) (RId (u8 "17")) (RRange (u8 "1") (u8 "2")) RNone); (mk_ref None (RId (u8 "68")) (RId (u8 "17")) (RId (u8 "4")) RNone); (mk_ref None (RId (u8 "68")) (RId (u8 "17")) (RRange (u8 "6") (u8 "8")) RNone); (mk_ref None (RId (u8 "68")) (RId (u8 "17")) (RRange (u8 "10") (u8 "13")) RNone); (mk_ref None (RId (u8 "68")) (RId (u8 "17")) (RRange (u8 "15") (u8 "16")) RNone); (mk_ref None (RId (u8 "68")) (RId (u8 "17")) (RRange (u8 "18") (u8 "20")) RNone); (mk_ref None (RId (u8 "68")) (RId (u8 "17")) (RId (u8 "25")) RNone); (mk_ref None (RRange (u8 "69") (u8 "76")) RNone RNone RNone); (mk_ref None (RId (u8 "77")) (RRange (u8 "3") (u8 "4")) RNone RNone); (mk_ref None (RRange (u8 "78") (u8 "82")) RNone RNone RNone); (mk_ref None (RRange (u8 "181") (u8 "182")) RNone RNone RNone); (mk_ref None (RId (u8 "192")) RNone (RRange (u8 "a") (u8 "b")) RNone); (mk_ref None (RId (u8 "192")) RNone (RRange (u8 "d") (u8 "n")) RNone); (mk_ref None (RId (u8 "193")) RNone RNone RNone)], [], u8 "   <     >    <       >    <               >    <      >    <       >    <               >    <   >    <       >    <               >    <   >    <       >    <               >    <      >    <                 >    <            >    <           >  <      >    <                      >    <       >    <           >  <  >    <                 >    <                        >  <>  <  >  <    >  <      >  <    >    <        >    <      >    <                        >    <      >    <            >    <          >           <          >      <    >                                  ").
Proof. vm_compute; reflexivity. Qed.

Example fidelity_reference_41 :
  let text := u8 "A 229. §, a 231. §, a 233. § (1) bekezdés a) és c) pontja, (2) bekezdés d) és f) pontja, a 256. §, a 314. § és a 318. § 2013. február 1-jén lép hatályba." in
  option_map (fun x => (map or_reference (fst x), map (fun o => r_act (or_reference o)) (snd x), marks text x))
    (run_references text) =
  Some ([(mk_ref None (RId (u8 "229")) RNone RNone RNone); (mk_ref None (RId (u8 "231")) RNone RNone RNone); (mk_ref None (RId (u8 "233")) (RId (u8 "1")) (RId (u8 "a")) RNone); (mk_ref None (RId (u8 "233")) (RId (u8 "1")) (RId (u8 "c")) RNone); (mk_ref None (RId (u8 "233")) (RId (u8 "2")) (RId (u8 "d")) RNone); (mk_ref None (RId (u8 "233")) (RId (u8 "2")) (RId (u8 "f")) RNone); (mk_ref None (RId (u8 "256")) RNone RNone RNone); (mk_ref None (RId (u8 "314")) RNone RNone RNone); (mk_ref None (RId (u8 "318")) RNone RNone RNone)], [], u8 "  <    >    <    >    <                    >    <       >  <             >    <       >    <    >    <    >      <    >                                  ").
Proof. vm_compute; reflexivity. Qed.

Example fidelity_reference_42 :
  let text := u8 "A 229. §, a 231. §, a 233. § (1) bekezdés a) és c) pontja, (2) bekezdés d) és f) pontja, a 256. §, a 314. § és a 318. § direkt nem egy hatályba helyező mondat." in
  option_map (fun x => (map or_reference (fst x), map (fun o => r_act (or_reference o)) (snd x), marks text x))
    (run_references text) =
  Some ([(mk_ref None (RId (u8 "229")) RNone RNone RNone); (mk_ref None (RId (u8 "231")) RNone RNone RNone); (mk_ref None (RId (u8 "233")) (RId (u8 "1")) (RId (u8 "a")) RNone); (mk_ref None (RId (u8 "233")) (RId (u8 "1")) (RId (u8 "c")) RNone); (mk_ref None RNone (RId (u8 "2")) (RId (u8 "d")) RNone); (mk_ref None RNone (RId (u8 "2")) (RId (u8 "f")) RNone); (mk_ref None (RId (u8 "256")) RNone RNone RNone); (mk_ref None (RId (u8 "314")) RNone RNone RNone); (mk_ref None (RId (u8 "318")) RNone RNone RNone)], [], u8 "  <    >    <    >    <                    >    <       >  <             >    <       >    <    >    <    >      <    >                                        ").
Proof. vm_compute; reflexivity. Qed.

Example fidelity_reference_43 :
  let text := u8 "A 228. §, a 230. §, a 232. §, a 233. § (1) bekezdés b) pontja és (2) bekezdés a)–c) és e) pontja, a 235–255. §, a 257–260. §, a 261. § (2)–(5) bekezdése és (6) bekezdés b)–d) pontja, a 262–290. §, a 291. § (1), (2), és (4)–(10) bekezdése, a 292–313. § és a 315–317. § sem hatálybahelyező mondat." in
  option_map (fun x => (map or_reference (fst x), map (fun o => r_act (or_reference o)) (snd x), marks text x))
    (run_references text) =
  Some ([(mk_ref None (RId (u8 "228")) RNone RNone RNone); (mk_ref None (RId (u8 "230")) RNone RNone RNone); (mk_ref None (RId (u8 "232")) RNone RNone RNone); (mk_ref None (RId (u8 "233")) (RId (u8 "1")) (RId (u8 "b")) RNone); (mk_ref None RNone (RId (u8 "2")) (RRange (u8 "a") (u8 "c")) RNone); (mk_ref None RNone (RId (u8 "2")) (RId (u8 "e")) RNone); (mk_ref None (RRange (u8 "235") (u8 "255")) RNone RNone RNone); (mk_ref None (RRange (u8 "257") (u8 "260")) RNone RNone RNone); (mk_ref None (RId (u8 "261")) (RRange (u8 "2") (u8 "5")) RNone RNone); (mk_ref None RNone (RId (u8 "6")) (RRange (u8 "b") (u8 "d")) RNone); (mk_ref None (RRange (u8 "262") (u8 "290")) RNone RNone RNone); (mk_ref None (RId (u8 "291")) (RRange (u8 "1") (u8 "2")) RNone RNone); (mk_ref None (RId (u8 "291")) (RRange (u8 "4") (u8 "10")) RNone RNone); (mk_ref None (RRange (u8 "292") (u8 "313")) RNone RNone RNone); (mk_ref None (RRange (u8 "315") (u8 "317")) RNone RNone RNone)], [], u8 "  <    >    <    >    <    >    <                           >    <                >    <       >    <        >    <        >    <                      >    <                       >    <        >    <             >     <                >    <        >      <        >                            ").
Proof. vm_compute; reflexivity. Qed.

Example fidelity_reference_44 :
  let text := u8 "A Ptk. 5:99. § címében az „átruházása” szövegrész helyébe az „átruházása és megterhelése” szöveg lép." in
  option_map (fun x => (map or_reference (fst x), map (fun o => r_act (or_reference o)) (snd x), marks text x))
    (run_references text) =
  Some ([(mk_ref (Some (u8 "Ptk.")) (RId (u8 "5:99")) RNone RNone RNone)], [Some (u8 "Ptk.")], u8 "  [  ] <     >                                                                                       ").
Proof. vm_compute; reflexivity. Qed.

Example fidelity_reference_45 :
  let text := u8 "A Ptk. 6:534. § címe az „életviszonyok” szövegrész helyett az „értékviszonyok” szöveggel lép hatályba." in
  option_map (fun x => (map or_reference (fst x), map (fun o => r_act (or_reference o)) (snd x), marks text x))
    (run_references text) =
  Some ([(mk_ref (Some (u8 "Ptk.")) (RId (u8 "6:534")) RNone RNone RNone)], [Some (u8 "Ptk.")], u8 "  [  ] <      >                                                                                       ").
Proof. vm_compute; reflexivity. Qed.

(* The texts for which the test only expects that they can be analyzed *)

Example fidelity_no_error :
  forallb (fun s => match run_references s with Some _ => true | None => false end)
  [u8 "Az erdőről, az erdő védelméről és az erdőgazdálkodásról szóló törvény szerint erdőnek, valamint erdőgazdálkodási célt közvetlenül szolgáló földterületnek minősülő földre (a továbbiakban együtt: erdőnek minősülő föld) e törvény rendelkezéseit kell alkalmazni.";
   u8 "Az adás-vételnek nem minősülő, a föld tulajdonjogának átruházásáról szóló szerződést (ezen alcímben a továbbiakban: szerződés) – annak létrejöttétől számított 8 napon belül – a tulajdonjogot szerző félnek (csere esetén a cserepartnerek valamelyikének) a mezőgazdasági igazgatási szerv részére kell megküldeni jóváhagyás céljából.";
   u8 "A haszonbérletre e törvény rendelkezései mellett a Polgári Törvénykönyv (a továbbiakban: Ptk.), valamint a földről szóló törvény haszonbérletre vonatkozó szabályait is alkalmazni kell.";
   u8 "Az UNESCO Világörökség Bizottsága által az Egyezmény 11. cikk (2) bekezdése alapján létrehozott és vezetett lista.";
   u8 "Világörökségi várományos helyszín (a továbbiakban: várományos helyszín): a kiemelkedõ kulturális örökségi, illetve természeti értékei (a továbbiakban: kiemelkedõ érték) révén, az Egyezmény 1. és 2. cikkében meghatározott kritériumok szerint az UNESCO Világörökség Központhoz (a továbbiakban: Központ) bejelentett.";
   u8 "A gyermeknevelési támogatás (e § alkalmazásában a továbbiakban együtt: anyasági ellátás) folyósításának időszakát nem kell beszámítani.";
   u8 "A minimálbér után a 2. § (1) bekezdés szerinti adómérték 50 százalékával megállapított összeggel a foglalkoztatás harmadik évében (a továbbiakban e § alkalmazásában: érvényesítési időszak).";
   u8 "Az egyéb használati jogviszonyt alapító szerzõdés a miniszteri döntés minisztériumi honlapon történõ közzétételétõl számított 60. napon e törvény erejénél fogva megszûnik.";
   u8 "Tilos a 67/548/EGK tanácsi irányelv 2. cikkének (2) bekezdésében meghatározott veszélyes anyagot vagy ezek utánzatát magánál tartva megjelenni.";
   u8 "E törvény 3. § (3) bekezdésének b) pontja az Unió polgárainak és családtagjaiknak a tagállamok területén történőszabad mozgáshoz és tartózkodáshoz való jogáról, valamint az 1612/68/EGK rendelet módosításáról, továbbáa 64/221/EGK, a 68/360/EGK, a 72/194/EGK, a 73/148/EGK, a 75/34/EGK, a 75/35/EGK, a 90/364/EGK, a 90/365/EGKés a 93/96/EGK irányelv hatályon kívül helyezéséről szóló, 2004. április 29-i 2004/38/EK európai parlamenti és tanácsiirányelv 24. cikkének való megfelelést szolgálja.";
   u8 "A felhívás előtt legalább 48 órával köteles bejelenteni az illetékes rendőrkapitányságnak – Budapesten a Budapesti Rendőr-főkapitányságnak – (a továbbiakban: gyülekezési hatóság).";
   u8 "A jogosultnak joga van az üzleti titok hasznosítására, mással történő közlésére és nyilvánosságra hozatalára (a közlés és nyilvánosságra hozatal együtt: az üzleti titok felfedése).";
   u8 " Az adó mértéke az adóalap 19,5 százaléka, az 1. § (4) bekezdésben foglalt esetekben a juttatások adóalapként meghatározott összegének 19,5 százaléka.";
   u8 "Semmis az alapszabály olyan rendelkezése, amely a vagyoni hozzájárulásokkal kapcsolatban az e §-ban meghatározottnál későbbi teljesítési határidőt ír elő.";
   u8 "E törvény az Alaptörvény P) cikk (2) bekezdése alapján sarkalatosnak minősül.";
   u8 "E szolgáltatások fedezetéről szóló 1997. évi LXXX. törvény végrehajtásáról szóló 195/1997. (XI. 5.) Kormányrendelet (a továbbiakban: Tbj. vhr.) 7/B. §-a szerint kell igazolni.";
   u8 "Ha az egyesülő jogi személyek közül egyes jogok (pl. részvénykibocsátás joga) nem mindegyik jogi személyt illetik meg.";
   u8 "Az 1986. évi 14. törvényerejű rendelettel kihirdetett, A Gyermekek Jogellenes Külföldre Vitelének Polgári Jogi Vonatkozásairól szóló,Hágában az 1980. évi október 25. napján kelt egyezmény alkalmazása szempontjából a Ptk. rendelkezéseit a Ptk. hatálybalépését követőenkülföldre vitt vagy ott visszatartott gyermekek tekintetében kell alkalmazni.";
   u8 "A Foglalkozások Egységes Osztályozási Rendszeréről szóló, 2012. január 1-jén hatályos KSH-közlemény (FEOR-08):6. főcsoport 61. csoportjába tartozó, a 7. főcsoport 7333 számú foglalkozásából a mezőgazdasági gép(motor) karbantartója, javítója munkakörben és a 8. főcsoport 8421 számú foglalkozás szerinti munkakörben(a továbbiakban együtt: mezőgazdasági munkakör).";
   u8 "Aki 2011. december 31-én – a társadalombiztosítási nyugellátásról szóló törvény alapján megállapított –I., II., vagy III. csoportos rokkantsági, baleseti rokkantsági nyugdíjra volt jogosult, azzal most nem foglalkozunk."] = true.
Proof. vm_compute; reflexivity. Qed.


(** * test_abbreviations.py *)

Example fidelity_abbreviation_1 :
  option_map an_abbreviations (grammar_analyzer (u8 "A hegyközségekről szóló 2012. évi CCXIX. törvény (a továbbiakban: Hktv.) 28. §-a helyébe a következő rendelkezés lép:")) =
  Some [mk_abbreviation (u8 "Hktv.") (u8 "2012. évi CCXIX. törvény")].
Proof. vm_compute; reflexivity. Qed.

Example fidelity_abbreviation_2 :
  option_map an_abbreviations (grammar_analyzer (u8 "A pénzügyi tranzakciós illetékről szóló 2012. évi CXVI. törvény (a továbbiakban: Pti. törvény) 7. § (1) bekezdése helyébe a következő rendelkezés lép:")) =
  Some [mk_abbreviation (u8 "Pti.") (u8 "2012. évi CXVI. törvény")].
Proof. vm_compute; reflexivity. Qed.

Example fidelity_abbreviation_3 :
  option_map an_abbreviations (grammar_analyzer (u8 "A víziközmű-szolgáltatásról szóló 2011. évi CCIX. törvény (a továbbiakban: Víziközmű tv.) 2. §-a a következő 31. ponttal egészül ki:")) =
  Some [mk_abbreviation (u8 "Víziközmű tv.") (u8 "2011. évi CCIX. törvény")].
Proof. vm_compute; reflexivity. Qed.

Example fidelity_abbreviation_4 :
  option_map an_abbreviations (grammar_analyzer (u8 "Az európai részvénytársaságról szóló 2004. évi XLV. törvény (a továbbiakban: Eurt.tv.) 2. §-a helyébe a következő rendelkezés lép:")) =
  Some [mk_abbreviation (u8 "Eurt.tv.") (u8 "2004. évi XLV. törvény")].
Proof. vm_compute; reflexivity. Qed.

Example fidelity_abbreviation_5 :
  option_map an_abbreviations (grammar_analyzer (u8 "E törvény rendelkezéseit a Polgári Törvénykönyvről szóló 2013. évi V. törvénnyel (a továbbiakban: Ptk.) együtt kell alkalmazni.")) =
  Some [mk_abbreviation (u8 "Ptk.") (u8 "2013. évi V. törvény")].
Proof. vm_compute; reflexivity. Qed.

Example fidelity_abbreviation_6 :
  option_map an_abbreviations (grammar_analyzer (u8 "Nem kell módosítani, ha a szövetkezetekről szóló 2006. évi X. törvény (a továbbiakban: Sztv.) rendelkezéseire utal Amennyiben azonban az alapszabály egyéb okból módosul, a szövetkezet köteles az Sztv.-re utalást is módosítani.")) =
  Some [mk_abbreviation (u8 "Sztv.") (u8 "2006. évi X. törvény")].
Proof. vm_compute; reflexivity. Qed.

Example fidelity_abbreviation_7 :
  option_map an_abbreviations (grammar_analyzer (u8 "A fogyasztóvédelmi hatósága fogyasztóvédelemrõl szóló 1997. évi CLV. törvény (a továbbiakban Fgytv.) szabályai szerint jár el.")) =
  Some [mk_abbreviation (u8 "Fgytv.") (u8 "1997. évi CLV. törvény")].
Proof. vm_compute; reflexivity. Qed.

Example fidelity_abbreviation_8 :
  option_map an_abbreviations (grammar_analyzer (u8 "A szabálysértésekről és egyebekről szóló 2012. évi I. törvény (a továbbiakban: Szabs. tv.) 29. § (2) bekezdés e) pontja helyébe a következő rendelkezés lép:")) =
  Some [mk_abbreviation (u8 "Szabs. tv.") (u8 "2012. évi I. törvény")].
Proof. vm_compute; reflexivity. Qed.

Example fidelity_abbreviation_9 :
  option_map an_abbreviations (grammar_analyzer (u8 "A Magyarország 2013. évi központi költségvetéséről szóló 2012. évi CCIV. törvény 44/B. és 44/C. §-a helyébe a következő rendelkezés lép:")) =
  Some [].
Proof. vm_compute; reflexivity. Qed.

Example fidelity_abbreviation_10 :
  option_map an_abbreviations (grammar_analyzer (u8 "A Kvtv. 72. §-a a következő (9)–(12) bekezdésekkel egészül ki:")) =
  Some [].
Proof. vm_compute; reflexivity. Qed.

Example fidelity_abbreviation_11 :
  option_map an_abbreviations (grammar_analyzer (u8 "A Büntető Törvénykönyvről szóló 1978. évi IV. törvény (a továbbiakban: 1978. évi IV. törvény) 316. § (4) bekezdése csak úgy.")) =
  Some [].
Proof. vm_compute; reflexivity. Qed.

Example fidelity_abbreviation_12 :
  option_map an_abbreviations (grammar_analyzer (u8 "A Büntető Törvénykönyvről szóló 1978. évi IV. törvény (a továbbiakban: 1978. évi IV. törvény) 316. § (4) bekezdése a következő c) ponttal egészül ki:")) =
  Some [].
Proof. vm_compute; reflexivity. Qed.


(** * test_block_amendments.py *)

Example fidelity_block_1 :
  option_map an_semantic (grammar_analyzer (u8 "A hegyközségekről szóló 2012. évi CCXIX. törvény (a továbbiakban: Hktv.) 28. §-a helyébe a következő rendelkezés lép:")) =
  Some [BlockAmendment (ARef (mk_ref (Some (u8 "2012. évi CCXIX. törvény")) (RId (u8 "28")) RNone RNone RNone)) false].
Proof. vm_compute; reflexivity. Qed.

Example fidelity_block_2 :
  option_map an_semantic (grammar_analyzer (u8 "A szabálysértésekről és egyebekről szóló 2012. évi I. törvény (a továbbiakban: Szabs. tv.) 29. § (2) bekezdés e) pontja helyébe a következő rendelkezés lép:")) =
  Some [BlockAmendment (ARef (mk_ref (Some (u8 "2012. évi I. törvény")) (RId (u8 "29")) (RId (u8 "2")) (RId (u8 "e")) RNone)) false].
Proof. vm_compute; reflexivity. Qed.

Example fidelity_block_3 :
  option_map an_semantic (grammar_analyzer (u8 "A Tv. 1. § 3. pontja helyébe a következő rendelkezés lép:")) =
  Some [BlockAmendment (ARef (mk_ref (Some (u8 "Tv.")) (RId (u8 "1")) RNone (RId (u8 "3")) RNone)) false].
Proof. vm_compute; reflexivity. Qed.

Example fidelity_block_4 :
  option_map an_semantic (grammar_analyzer (u8 "Az alpontok rendjéről szóló 2111. évi LXXV. törvény (a továbbiakban: Tv.) 1. § (1) bekezdés 1. pont c) alpontja helyébe a következő rendelkezés lép:")) =
  Some [BlockAmendment (ARef (mk_ref (Some (u8 "2111. évi LXXV. törvény")) (RId (u8 "1")) (RId (u8 "1")) (RId (u8 "1")) (RId (u8 "c")))) false].
Proof. vm_compute; reflexivity. Qed.

Example fidelity_block_5 :
  option_map an_semantic (grammar_analyzer (u8 "A Batv. 1. § (2) bekezdés b)–f) pontja helyébe a következő rendelkezés lép:")) =
  Some [BlockAmendment (ARef (mk_ref (Some (u8 "Batv.")) (RId (u8 "1")) (RId (u8 "2")) (RRange (u8 "b") (u8 "f")) RNone)) false].
Proof. vm_compute; reflexivity. Qed.

Example fidelity_block_6 :
  option_map an_semantic (grammar_analyzer (u8 "Az Eht. 188. §-a a következő 31/a. ponttal egészül ki:")) =
  Some [BlockAmendment (ARef (mk_ref (Some (u8 "Eht.")) (RId (u8 "188")) RNone (RId (u8 "31/a")) RNone)) true].
Proof. vm_compute; reflexivity. Qed.

Example fidelity_block_7 :
  option_map an_semantic (grammar_analyzer (u8 "A légiközlekedésről szóló 1995. évi XCVII. törvény 71. §-a a következő 3a. ponttal egészül ki:")) =
  Some [BlockAmendment (ARef (mk_ref (Some (u8 "1995. évi XCVII. törvény")) (RId (u8 "71")) RNone (RId (u8 "3a")) RNone)) true].
Proof. vm_compute; reflexivity. Qed.

Example fidelity_block_8 :
  option_map an_semantic (grammar_analyzer (u8 "A Víziközmű tv. 63. §-a a következő (5)–(7) bekezdéssel egészül ki:")) =
  Some [BlockAmendment (ARef (mk_ref (Some (u8 "Víziközmű tv.")) (RId (u8 "63")) (RRange (u8 "5") (u8 "7")) RNone RNone)) true].
Proof. vm_compute; reflexivity. Qed.

Example fidelity_block_9 :
  option_map an_semantic (grammar_analyzer (u8 "A Ptk. 6:417. § (4) bekezdése a következő szöveggel lép hatályba:")) =
  Some [BlockAmendment (ARef (mk_ref (Some (u8 "Ptk.")) (RId (u8 "6:417")) (RId (u8 "4")) RNone RNone)) false].
Proof. vm_compute; reflexivity. Qed.

Example fidelity_block_10 :
  option_map an_semantic (grammar_analyzer (u8 "A Ptk. 6:130. §-a a következő szöveggel lép hatályba:")) =
  Some [BlockAmendment (ARef (mk_ref (Some (u8 "Ptk.")) (RId (u8 "6:130")) RNone RNone RNone)) false].
Proof. vm_compute; reflexivity. Qed.

Example fidelity_block_11 :
  option_map an_semantic (grammar_analyzer (u8 "A Ptk. 3:391. §-a a következő (3) bekezdéssel kiegészülve lép hatályba:")) =
  Some [BlockAmendment (ARef (mk_ref (Some (u8 "Ptk.")) (RId (u8 "3:391")) (RId (u8 "3")) RNone RNone)) true].
Proof. vm_compute; reflexivity. Qed.

Example fidelity_block_12 :
  option_map an_semantic (grammar_analyzer (u8 "A Ptk. 3:278. § (1) bekezdés e) pontja a következő szöveggel lép hatályba:")) =
  Some [BlockAmendment (ARef (mk_ref (Some (u8 "Ptk.")) (RId (u8 "3:278")) (RId (u8 "1")) (RId (u8 "e")) RNone)) false].
Proof. vm_compute; reflexivity. Qed.

Example fidelity_block_13 :
  option_map an_semantic (grammar_analyzer (u8 "A polgári törvénykönyvről szóló 2013. évi V. tv. 3:319. § (5) bekezdése a következő szöveggel lép hatályba:")) =
  Some [BlockAmendment (ARef (mk_ref (Some (u8 "2013. évi V. törvény")) (RId (u8 "3:319")) (RId (u8 "5")) RNone RNone)) false].
Proof. vm_compute; reflexivity. Qed.

Example fidelity_block_14 :
  option_map an_semantic (grammar_analyzer (u8 "A Gyvt. 69/D. §-a a következő (1a) és (1b) bekezdéssel egészül ki:")) =
  Some [BlockAmendment (ARef (mk_ref (Some (u8 "Gyvt.")) (RId (u8 "69/D")) (RRange (u8 "1a") (u8 "1b")) RNone RNone)) true].
Proof. vm_compute; reflexivity. Qed.

Example fidelity_block_15 :
  option_map an_semantic (grammar_analyzer (u8 "A Ptk. 3:261. § (4) és (5) bekezdése a következő szöveggel lép hatályba:")) =
  Some [BlockAmendment (ARef (mk_ref (Some (u8 "Ptk.")) (RId (u8 "3:261")) (RRange (u8 "4") (u8 "5")) RNone RNone)) false].
Proof. vm_compute; reflexivity. Qed.

Example fidelity_block_16 :
  option_map an_semantic (grammar_analyzer (u8 "A Kkt. 49. § (2) bekezdés i) pontja helyébe a következő rendelkezés lép, és a bekezdés a következő j) ponttal egészül ki:")) =
  Some [BlockAmendment (ARef (mk_ref (Some (u8 "Kkt.")) (RId (u8 "49")) (RId (u8 "2")) (RRange (u8 "i") (u8 "j")) RNone)) false].
Proof. vm_compute; reflexivity. Qed.

Example fidelity_block_17 :
  option_map an_semantic (grammar_analyzer (u8 "Az Elszámolási tv. 35. § (4) bekezdése helyébe a következő rendelkezés lép, és a § a következő (5) bekezdéssel egészül ki:")) =
  Some [BlockAmendment (ARef (mk_ref (Some (u8 "Elszámolási tv.")) (RId (u8 "35")) (RRange (u8 "4") (u8 "5")) RNone RNone)) false].
Proof. vm_compute; reflexivity. Qed.

Example fidelity_block_18 :
  option_map an_semantic (grammar_analyzer (u8 "A Ptk. 3:268. § (2) és (3) bekezdése helyébe a következő rendelkezések lépnek, és a § a következő (4) bekezdéssel egészül ki:")) =
  Some [BlockAmendment (ARef (mk_ref (Some (u8 "Ptk.")) (RId (u8 "3:268")) (RRange (u8 "2") (u8 "4")) RNone RNone)) false].
Proof. vm_compute; reflexivity. Qed.

Example fidelity_block_19 :
  option_map an_semantic (grammar_analyzer (u8 "A Ptk. 8:6. § r) pontja helyébe a következő rendelkezés lép, és a § a következő s) ponttal egészül ki:")) =
  Some [BlockAmendment (ARef (mk_ref (Some (u8 "Ptk.")) (RId (u8 "8:6")) RNone (RRange (u8 "r") (u8 "s")) RNone)) false].
Proof. vm_compute; reflexivity. Qed.

Example fidelity_block_20 :
  option_map an_semantic (grammar_analyzer (u8 "A Tv. 16. § (1) bekezdés f) pontja helyébe a következő rendelkezés lép, és a § a következő g) és h) pontokkal egészül ki:")) =
  Some [BlockAmendment (ARef (mk_ref (Some (u8 "Tv.")) (RId (u8 "16")) (RId (u8 "1")) (RRange (u8 "f") (u8 "h")) RNone)) false].
Proof. vm_compute; reflexivity. Qed.

Example fidelity_block_21 :
  option_map an_semantic (grammar_analyzer (u8 "Az Tv. 5/A. § (2a) bekezdése helyébe a következő rendelkezés lép, és a § a következő (2b)–(2f) bekezdéssel egészül ki:")) =
  Some [BlockAmendment (ARef (mk_ref (Some (u8 "Tv.")) (RId (u8 "5/A")) (RRange (u8 "2a") (u8 "2f")) RNone RNone)) false].
Proof. vm_compute; reflexivity. Qed.

Example fidelity_block_22 :
  option_map an_semantic (grammar_analyzer (u8 "Az Evt. 108. § (4) bekezdése helyébe a következő rendelkezés lép, valamint a következő (5)–(10) bekezdéssel egészül ki:")) =
  Some [BlockAmendment (ARef (mk_ref (Some (u8 "Evt.")) (RId (u8 "108")) (RRange (u8 "4") (u8 "10")) RNone RNone)) false].
Proof. vm_compute; reflexivity. Qed.

Example fidelity_block_23 :
  option_map an_semantic (grammar_analyzer (u8 "A Btk. 459. § (1) bekezdés 24. pontja helyébe a következő rendelkezés lép, valamint a 459. § (1) bekezdése a következő 24a. ponttal egészül ki:")) =
  Some [BlockAmendment (ARef (mk_ref (Some (u8 "Btk.")) (RId (u8 "459")) (RId (u8 "1")) (RRange (u8 "24") (u8 "24a")) RNone)) false].
Proof. vm_compute; reflexivity. Qed.

Example fidelity_block_24 :
  option_map an_semantic (grammar_analyzer (u8 "Az egyszerűsített foglalkoztatásról szóló 2010. évi LXXV. törvény (a továbbiakban: Efotv.) a következő 1. § (1a) bekezdéssel egészül ki:")) =
  Some [BlockAmendment (ARef (mk_ref (Some (u8 "2010. évi LXXV. törvény")) (RId (u8 "1")) (RId (u8 "1a")) RNone RNone)) true].
Proof. vm_compute; reflexivity. Qed.

Example fidelity_block_25 :
  option_map an_semantic (grammar_analyzer (u8 "A társadalombiztosítási nyugellátásról szóló 1997. évi LXXXI. törvény 96. § (2) bekezdés h) pontja helyébe a következő rendelkezés lép, egyidejűleg a bekezdés a következő i) ponttal egészül ki:")) =
  Some [BlockAmendment (ARef (mk_ref (Some (u8 "1997. évi LXXXI. törvény")) (RId (u8 "96")) (RId (u8 "2")) (RRange (u8 "h") (u8 "i")) RNone)) false].
Proof. vm_compute; reflexivity. Qed.

Example fidelity_block_26 :
  option_map an_semantic (grammar_analyzer (u8 "A Btk. 279. § (1) és (2) bekezdése helyébe a következő rendelkezések lépnek:")) =
  Some [BlockAmendment (ARef (mk_ref (Some (u8 "Btk.")) (RId (u8 "279")) (RRange (u8 "1") (u8 "2")) RNone RNone)) false].
Proof. vm_compute; reflexivity. Qed.

Example fidelity_block_27 :
  option_map an_semantic (grammar_analyzer (u8 "A Btk. 283. § (2) és (2a) bekezdése helyébe a következő rendelkezések lépnek:")) =
  Some [BlockAmendment (ARef (mk_ref (Some (u8 "Btk.")) (RId (u8 "283")) (RRange (u8 "2") (u8 "2a")) RNone RNone)) false].
Proof. vm_compute; reflexivity. Qed.

Example fidelity_block_28 :
  option_map an_semantic (grammar_analyzer (u8 "A Btk. XX. Fejezete a következő alcímmel és 212/A. §-sal kiegészülve lép hatályba:")) =
  Some [BlockAmendment (ASRef (mk_sref (Some (u8 "Btk.")) None None None None None (Some (mk_combo BEFORE_WITH_ARTICLE (u8 "212/A"))))) true].
Proof. vm_compute; reflexivity. Qed.

Example fidelity_block_29 :
  option_map an_semantic (grammar_analyzer (u8 "A Btk. 349. §-a és a megelőző alcím helyébe a következő rendelkezés és alcím lép:")) =
  Some [BlockAmendment (ASRef (mk_sref (Some (u8 "Btk.")) None None None None None (Some (mk_combo BEFORE_WITH_ARTICLE (u8 "349"))))) false].
Proof. vm_compute; reflexivity. Qed.

Example fidelity_block_30 :
  option_map an_semantic (grammar_analyzer (u8 "A Btk. a 300. §-t megelőzően a következő alcímmel egészül ki:")) =
  Some [BlockAmendment (ASRef (mk_sref (Some (u8 "Btk.")) None None None None None (Some (mk_combo BEFORE_WITHOUT_ARTICLE (u8 "300"))))) true].
Proof. vm_compute; reflexivity. Qed.

Example fidelity_block_31 :
  option_map an_semantic (grammar_analyzer (u8 "A Btk. XXVII. Fejezete a következő alcímmel és 300/A. §-sal egészül ki:")) =
  Some [BlockAmendment (ASRef (mk_sref (Some (u8 "Btk.")) None None None None None (Some (mk_combo BEFORE_WITH_ARTICLE (u8 "300/A"))))) true].
Proof. vm_compute; reflexivity. Qed.

Example fidelity_block_32 :
  option_map an_semantic (grammar_analyzer (u8 "A Btk. Terrorcselekmény alcíme a következő 316/A. §-sal egészül ki:")) =
  Some [BlockAmendment (ARef (mk_ref (Some (u8 "Btk.")) (RId (u8 "316/A")) RNone RNone RNone)) true].
Proof. vm_compute; reflexivity. Qed.

Example fidelity_block_33 :
  option_map an_semantic (grammar_analyzer (u8 "A Btk. Terrorizmus finanszírozása alcíme a következő 318/A. és 318/B. §-sal egészül ki:")) =
  Some [BlockAmendment (ARef (mk_ref (Some (u8 "Btk.")) (RRange (u8 "318/A") (u8 "318/B")) RNone RNone RNone)) true].
Proof. vm_compute; reflexivity. Qed.

Example fidelity_block_34 :
  option_map an_semantic (grammar_analyzer (u8 "A Btk. a 404. §-t követően a következő alcímmel és 404/A. §-sal kiegészülve lép hatályba:")) =
  Some [BlockAmendment (ASRef (mk_sref (Some (u8 "Btk.")) None None None None None (Some (mk_combo BEFORE_WITH_ARTICLE (u8 "404/A"))))) true].
Proof. vm_compute; reflexivity. Qed.

Example fidelity_block_35 :
  option_map an_semantic (grammar_analyzer (u8 "A Btk. a következő 226/A. §-sal és az azt megelőző alcímmel egészül ki:")) =
  Some [BlockAmendment (ASRef (mk_sref (Some (u8 "Btk.")) None None None None None (Some (mk_combo BEFORE_WITH_ARTICLE (u8 "226/A"))))) true].
Proof. vm_compute; reflexivity. Qed.

Example fidelity_block_36 :
  option_map an_semantic (grammar_analyzer (u8 "A Btk. „Új pszichoaktív anyaggal visszaélés” alcíme a következő 184/A–184/D. §-sal egészül ki:")) =
  Some [BlockAmendment (ARef (mk_ref (Some (u8 "Btk.")) (RRange (u8 "184/A") (u8 "184/D")) RNone RNone RNone)) true].
Proof. vm_compute; reflexivity. Qed.

Example fidelity_block_37 :
  option_map an_semantic (grammar_analyzer (u8 "A Btk. XXIV. Fejezete a következő alcímmel és 261/A. §-sal egészül ki:")) =
  Some [BlockAmendment (ASRef (mk_sref (Some (u8 "Btk.")) None None None None None (Some (mk_combo BEFORE_WITH_ARTICLE (u8 "261/A"))))) true].
Proof. vm_compute; reflexivity. Qed.

Example fidelity_block_38 :
  option_map an_semantic (grammar_analyzer (u8 "A Btk. 388/A. §-a és az azt megelőző alcím helyébe a következő alcím és rendelkezés lép:")) =
  Some [BlockAmendment (ASRef (mk_sref (Some (u8 "Btk.")) None None None None None (Some (mk_combo BEFORE_WITH_ARTICLE (u8 "388/A"))))) false].
Proof. vm_compute; reflexivity. Qed.

Example fidelity_block_39 :
  option_map an_semantic (grammar_analyzer (u8 "A Btk. a következő 352/A–352/C. §-sal és az azokat megelőző alcímekkel egészül ki:")) =
  Some [BlockAmendment (ASRef (mk_sref (Some (u8 "Btk.")) None None None None None (Some (mk_combo BEFORE_WITH_ARTICLE (u8 "352/A"))))) true].
Proof. vm_compute; reflexivity. Qed.

Example fidelity_block_40 :
  option_map an_semantic (grammar_analyzer (u8 "A Btk. a következő alcímmel és 410/A. §-sal egészül ki:")) =
  Some [BlockAmendment (ASRef (mk_sref (Some (u8 "Btk.")) None None None None None (Some (mk_combo BEFORE_WITH_ARTICLE (u8 "410/A"))))) true].
Proof. vm_compute; reflexivity. Qed.

Example fidelity_block_41 :
  option_map an_semantic (grammar_analyzer (u8 "A Btk. 411. §-át megelőző alcím címe és 411. §-a helyébe a következő rendelkezés lép:")) =
  Some [BlockAmendment (ASRef (mk_sref (Some (u8 "Btk.")) None None None None None (Some (mk_combo BEFORE_WITH_ARTICLE (u8 "411"))))) false].
Proof. vm_compute; reflexivity. Qed.

Example fidelity_block_42 :
  option_map an_semantic (grammar_analyzer (u8 "A Btk. IX. Fejezete a 92/A. §-t követően a következő alcímmel egészül ki:")) =
  Some [BlockAmendment (ASRef (mk_sref (Some (u8 "Btk.")) None None None None None (Some (mk_combo AFTER (u8 "92/A"))))) true].
Proof. vm_compute; reflexivity. Qed.

Example fidelity_block_43 :
  option_map an_semantic (grammar_analyzer (u8 "A Btk. 83. §-t megelőző alcím helyébe a következő alcím lép:")) =
  Some [BlockAmendment (ASRef (mk_sref (Some (u8 "Btk.")) None None None None None (Some (mk_combo BEFORE_WITHOUT_ARTICLE (u8 "83"))))) false].
Proof. vm_compute; reflexivity. Qed.

Example fidelity_block_44 :
  option_map an_semantic (grammar_analyzer (u8 "A Btk. a 124. §-t követően a következő alcímmel és 124/A. §-sal egészül ki:")) =
  Some [BlockAmendment (ASRef (mk_sref (Some (u8 "Btk.")) None None None None None (Some (mk_combo BEFORE_WITH_ARTICLE (u8 "124/A"))))) true].
Proof. vm_compute; reflexivity. Qed.

Example fidelity_block_45 :
  option_map an_semantic (grammar_analyzer (u8 "Az elektronikus információszabadságról szóló 2005. évi XC. törvény (a továbbiakban: Einfotv.) 12. §-át megelőző alcíme helyébe a következő alcím lép:")) =
  Some [BlockAmendment (ASRef (mk_sref (Some (u8 "2005. évi XC. törvény")) None None None None None (Some (mk_combo BEFORE_WITHOUT_ARTICLE (u8 "12"))))) false].
Proof. vm_compute; reflexivity. Qed.

Example fidelity_block_46 :
  option_map an_semantic (grammar_analyzer (u8 "A Büntető Törvénykönyvről szóló 2012. évi C. törvény 350. §-a és az azt megelőző alcím-megjelölése helyébe a következő rendelkezés lép:")) =
  Some [BlockAmendment (ASRef (mk_sref (Some (u8 "2012. évi C. törvény")) None None None None None (Some (mk_combo BEFORE_WITH_ARTICLE (u8 "350"))))) false].
Proof. vm_compute; reflexivity. Qed.

Example fidelity_block_47 :
  option_map an_semantic (grammar_analyzer (u8 "A számvitelről szóló 2000. évi C. törvény (a továbbiakban: Szt.) 3. § (2) bekezdés 4. és 5. pontja helyébe a következő rendelkezések lépnek és a bekezdés a következő 5a. ponttal egészül ki:")) =
  Some [BlockAmendment (ARef (mk_ref (Some (u8 "2000. évi C. törvény")) (RId (u8 "3")) (RId (u8 "2")) (RRange (u8 "4") (u8 "5a")) RNone)) false].
Proof. vm_compute; reflexivity. Qed.

Example fidelity_block_48 :
  option_map an_semantic (grammar_analyzer (u8 "A Ptk. Hatodik Könyv Ötödik Része helyébe a következő rész lép:")) =
  Some [BlockAmendment (ASRef (mk_sref (Some (u8 "Ptk.")) (Some (u8 "6")) (Some (u8 "5")) None None None None)) false].
Proof. vm_compute; reflexivity. Qed.

Example fidelity_block_49 :
  option_map an_semantic (grammar_analyzer (u8 "A Ptk. Harmadik Könyv VIII. Címének helyébe a következő cím lép:")) =
  Some [BlockAmendment (ASRef (mk_sref (Some (u8 "Ptk.")) (Some (u8 "3")) None (Some (u8 "8")) None None None)) false].
Proof. vm_compute; reflexivity. Qed.

Example fidelity_block_50 :
  option_map an_semantic (grammar_analyzer (u8 "A Ptk. Harmadik Könyve a következő VIII. Címmel egészül ki:")) =
  Some [BlockAmendment (ASRef (mk_sref (Some (u8 "Ptk.")) (Some (u8 "3")) None (Some (u8 "8")) None None None)) true].
Proof. vm_compute; reflexivity. Qed.

Example fidelity_block_51 :
  option_map an_semantic (grammar_analyzer (u8 "Az Szt. a következő VI/A. Fejezettel egészül ki:")) =
  Some [BlockAmendment (ASRef (mk_sref (Some (u8 "Szt.")) None None None (Some (u8 "6/A")) None None)) true].
Proof. vm_compute; reflexivity. Qed.

Example fidelity_block_52 :
  option_map an_semantic (grammar_analyzer (u8 "A Btk. XXIV. Fejezete helyébe a következő fejezet lép:")) =
  Some [BlockAmendment (ASRef (mk_sref (Some (u8 "Btk.")) None None None (Some (u8 "24")) None None)) false].
Proof. vm_compute; reflexivity. Qed.

Example fidelity_block_53 :
  option_map an_semantic (grammar_analyzer (u8 "Az Nkt. 11/A. alcíme helyébe a következő rendelkezés lép:")) =
  Some [BlockAmendment (ASRef (mk_sref (Some (u8 "Nkt.")) None None None None (Some (u8 "11/A")) None)) false].
Proof. vm_compute; reflexivity. Qed.

Example fidelity_block_54 :
  option_map an_semantic (grammar_analyzer (u8 "A Ht. 42. § (1) és (2) bekezdése helyébe a következő rendelkezések lépnek, és a § a következő (1a) bekezdéssel egészül ki:")) =
  Some [BlockAmendment (ARef (mk_ref (Some (u8 "Ht.")) (RId (u8 "42")) (RRange (u8 "1") (u8 "2")) RNone RNone)) false].
Proof. vm_compute; reflexivity. Qed.

Example fidelity_block_55 :
  option_map an_semantic (grammar_analyzer (u8 "A Polgári Törvénykönyvről szóló 2013. évi V. törvény hatálybalépésével összefüggő átmeneti és felhatalmazó rendelkezésekről szóló 2013. évi CLXXVII. törvény 5. alcíme a következő 12/A. §-sal egészül ki:")) =
  Some [BlockAmendment (ARef (mk_ref (Some (u8 "2013. évi CLXXVII. törvény")) (RId (u8 "12/A")) RNone RNone RNone)) true].
Proof. vm_compute; reflexivity. Qed.

Example fidelity_block_56 :
  option_map an_semantic (grammar_analyzer (u8 "A Ket. 172. § p) és q) pontja helyébe a következő rendelkezések lépnek, és a § a következő r)–t) ponttal egészül ki:")) =
  Some [BlockAmendment (ARef (mk_ref (Some (u8 "Ket.")) (RId (u8 "172")) RNone (RRange (u8 "p") (u8 "t")) RNone)) false].
Proof. vm_compute; reflexivity. Qed.

Example fidelity_block_57 :
  option_map an_semantic (grammar_analyzer (u8 "A Büntető Törvénykönyvről szóló 2012. évi C. törvény (a továbbiakban: Btk.) „Emberkereskedelem” című alcíme helyébe a következő rendelkezés lép:")) =
  Some [BlockAmendment (ASRef (mk_sref (Some (u8 "2012. évi C. törvény")) None None None None (Some (u8 "Emberkereskedelem")) None)) false].
Proof. vm_compute; reflexivity. Qed.

Example fidelity_block_58 :
  option_map an_semantic (grammar_analyzer (u8 "A Btk. Terrorizmus finanszírozása alcíme helyébe a következő rendelkezés lép:")) =
  Some [BlockAmendment (ASRef (mk_sref (Some (u8 "Btk.")) None None None None (Some (u8 "Terrorizmus finanszírozása")) None)) false].
Proof. vm_compute; reflexivity. Qed.

Example fidelity_block_59 :
  option_map an_semantic (grammar_analyzer (u8 "A Büntető Törvénykönyvről szóló 2012. évi C. törvény (a továbbiakban: Btk.) 322. §-át követően a következő alcím címmel és 322/A. §-sal egészül ki:")) =
  Some [BlockAmendment (ASRef (mk_sref (Some (u8 "2012. évi C. törvény")) None None None None None (Some (mk_combo BEFORE_WITH_ARTICLE (u8 "322/A"))))) true].
Proof. vm_compute; reflexivity. Qed.


(** * test_enforcement_date.py *)

Example fidelity_enforcement_1 :
  option_map an_semantic (grammar_analyzer (u8 "E törvény 2013. július 1-jén lép hatályba.")) =
  Some [EnforcementDate None (EDate (mk_date 2013 7 1)) None].
Proof. vm_compute; reflexivity. Qed.

Example fidelity_enforcement_2 :
  option_map an_semantic (grammar_analyzer (u8 "Ez a törvény a kihirdetését követő napon lép hatályba.")) =
  Some [EnforcementDate None (EDaysAfterPublication 1) None].
Proof. vm_compute; reflexivity. Qed.

Example fidelity_enforcement_3 :
  option_map an_semantic (grammar_analyzer (u8 "Ez a törvény kihirdetését követő napon lép hatályba.")) =
  Some [EnforcementDate None (EDaysAfterPublication 1) None].
Proof. vm_compute; reflexivity. Qed.

Example fidelity_enforcement_4 :
  option_map an_semantic (grammar_analyzer (u8 "Ez a törvény – a (2) bekezdésben meghatározott kivétellel – a kihirdetését követő napon lép hatályba.")) =
  Some [EnforcementDate None (EDaysAfterPublication 1) None].
Proof. vm_compute; reflexivity. Qed.

Example fidelity_enforcement_5 :
  option_map an_semantic (grammar_analyzer (u8 "Ez a törvény – a (2)–(14) bekezdésben meghatározott kivétellel – a kihirdetését követő napon lép hatályba.")) =
  Some [EnforcementDate None (EDaysAfterPublication 1) None].
Proof. vm_compute; reflexivity. Qed.

Example fidelity_enforcement_6 :
  option_map an_semantic (grammar_analyzer (u8 "Ez a törvény a kihirdetését követő nyolcadik napon lép hatályba.")) =
  Some [EnforcementDate None (EDaysAfterPublication 8) None].
Proof. vm_compute; reflexivity. Qed.

Example fidelity_enforcement_7 :
  option_map an_semantic (grammar_analyzer (u8 "Ez a törvény a kihirdetését követő tizenötödik napon lép hatályba.")) =
  Some [EnforcementDate None (EDaysAfterPublication 15) None].
Proof. vm_compute; reflexivity. Qed.

Example fidelity_enforcement_8 :
  option_map an_semantic (grammar_analyzer (u8 "Ez a törvény a kihirdetését követő harmincadik napon lép hatályba.")) =
  Some [EnforcementDate None (EDaysAfterPublication 30) None].
Proof. vm_compute; reflexivity. Qed.

Example fidelity_enforcement_9 :
  option_map an_semantic (grammar_analyzer (u8 "Ez a törvény – a (2)–(8) bekezdésben foglalt kivétellel – a kihirdetést követő 8. napon lép hatályba.")) =
  Some [EnforcementDate None (EDaysAfterPublication 8) None].
Proof. vm_compute; reflexivity. Qed.

Example fidelity_enforcement_10 :
  option_map an_semantic (grammar_analyzer (u8 "Ez a törvény – a (2) bekezdésben foglaltak kivételével − a kihirdetését követő 30. napon lép hatályba.")) =
  Some [EnforcementDate None (EDaysAfterPublication 30) None].
Proof. vm_compute; reflexivity. Qed.

Example fidelity_enforcement_11 :
  option_map an_semantic (grammar_analyzer (u8 "Az 50–51. § és az 53. § (1)–(5) bekezdése e törvény kihirdetését követő 31. napon lép hatályba.")) =
  Some [EnforcementDate (Some ((mk_ref None (RRange (u8 "50") (u8 "51")) RNone RNone RNone))) (EDaysAfterPublication 31) None;
        EnforcementDate (Some ((mk_ref None (RId (u8 "53")) (RRange (u8 "1") (u8 "5")) RNone RNone))) (EDaysAfterPublication 31) None].
Proof. vm_compute; reflexivity. Qed.

Example fidelity_enforcement_12 :
  option_map an_semantic (grammar_analyzer (u8 "A 180. § (1) bekezdés a) pontja 2013. január 2-án lép hatályba.")) =
  Some [EnforcementDate (Some ((mk_ref None (RId (u8 "180")) (RId (u8 "1")) (RId (u8 "a")) RNone))) (EDate (mk_date 2013 1 2)) None].
Proof. vm_compute; reflexivity. Qed.

Example fidelity_enforcement_13 :
  option_map an_semantic (grammar_analyzer (u8 "A 112. § (4), (10), (32), (44), (48) és (51) bekezdése, (54) bekezdésének 30. pontja 2014. július 1-jén lép hatályba.")) =
  Some [EnforcementDate (Some ((mk_ref None (RId (u8 "112")) (RId (u8 "4")) RNone RNone))) (EDate (mk_date 2014 7 1)) None;
        EnforcementDate (Some ((mk_ref None (RId (u8 "112")) (RId (u8 "10")) RNone RNone))) (EDate (mk_date 2014 7 1)) None;
        EnforcementDate (Some ((mk_ref None (RId (u8 "112")) (RId (u8 "32")) RNone RNone))) (EDate (mk_date 2014 7 1)) None;
        EnforcementDate (Some ((mk_ref None (RId (u8 "112")) (RId (u8 "44")) RNone RNone))) (EDate (mk_date 2014 7 1)) None;
        EnforcementDate (Some ((mk_ref None (RId (u8 "112")) (RId (u8 "48")) RNone RNone))) (EDate (mk_date 2014 7 1)) None;
        EnforcementDate (Some ((mk_ref None (RId (u8 "112")) (RId (u8 "51")) RNone RNone))) (EDate (mk_date 2014 7 1)) None;
        EnforcementDate (Some ((mk_ref None (RId (u8 "112")) (RId (u8 "54")) (RId (u8 "30")) RNone))) (EDate (mk_date 2014 7 1)) None].
Proof. vm_compute; reflexivity. Qed.

Example fidelity_enforcement_14 :
  option_map an_semantic (grammar_analyzer (u8 "A 10. § c) és d) pontja 2017. június 30. napján lép hatályba.")) =
  Some [EnforcementDate (Some ((mk_ref None (RId (u8 "10")) RNone (RRange (u8 "c") (u8 "d")) RNone))) (EDate (mk_date 2017 6 30)) None].
Proof. vm_compute; reflexivity. Qed.

Example fidelity_enforcement_15 :
  option_map an_semantic (grammar_analyzer (u8 "A 36. §, a 197. § (3) bekezdése, a 200. § (4) bekezdése, a 205. §, a 218–219. §, a 221. §, a 225–227. §, a 229. §, a 231. §, a 233. § (1) bekezdés a) és c) pontja, (2) bekezdés d) és f) pontja, a 256. §, a 314. § és a 318. § 2013. február 1-jén lép hatályba.")) =
  Some [EnforcementDate (Some ((mk_ref None (RId (u8 "36")) RNone RNone RNone))) (EDate (mk_date 2013 2 1)) None;
        EnforcementDate (Some ((mk_ref None (RId (u8 "197")) (RId (u8 "3")) RNone RNone))) (EDate (mk_date 2013 2 1)) None;
        EnforcementDate (Some ((mk_ref None (RId (u8 "200")) (RId (u8 "4")) RNone RNone))) (EDate (mk_date 2013 2 1)) None;
        EnforcementDate (Some ((mk_ref None (RId (u8 "205")) RNone RNone RNone))) (EDate (mk_date 2013 2 1)) None;
        EnforcementDate (Some ((mk_ref None (RRange (u8 "218") (u8 "219")) RNone RNone RNone))) (EDate (mk_date 2013 2 1)) None;
        EnforcementDate (Some ((mk_ref None (RId (u8 "221")) RNone RNone RNone))) (EDate (mk_date 2013 2 1)) None;
        EnforcementDate (Some ((mk_ref None (RRange (u8 "225") (u8 "227")) RNone RNone RNone))) (EDate (mk_date 2013 2 1)) None;
        EnforcementDate (Some ((mk_ref None (RId (u8 "229")) RNone RNone RNone))) (EDate (mk_date 2013 2 1)) None;
        EnforcementDate (Some ((mk_ref None (RId (u8 "231")) RNone RNone RNone))) (EDate (mk_date 2013 2 1)) None;
        EnforcementDate (Some ((mk_ref None (RId (u8 "233")) (RId (u8 "1")) (RId (u8 "a")) RNone))) (EDate (mk_date 2013 2 1)) None;
        EnforcementDate (Some ((mk_ref None (RId (u8 "233")) (RId (u8 "1")) (RId (u8 "c")) RNone))) (EDate (mk_date 2013 2 1)) None;
        EnforcementDate (Some ((mk_ref None (RId (u8 "233")) (RId (u8 "2")) (RId (u8 "d")) RNone))) (EDate (mk_date 2013 2 1)) None;
        EnforcementDate (Some ((mk_ref None (RId (u8 "233")) (RId (u8 "2")) (RId (u8 "f")) RNone))) (EDate (mk_date 2013 2 1)) None;
        EnforcementDate (Some ((mk_ref None (RId (u8 "256")) RNone RNone RNone))) (EDate (mk_date 2013 2 1)) None;
        EnforcementDate (Some ((mk_ref None (RId (u8 "314")) RNone RNone RNone))) (EDate (mk_date 2013 2 1)) None;
        EnforcementDate (Some ((mk_ref None (RId (u8 "318")) RNone RNone RNone))) (EDate (mk_date 2013 2 1)) None].
Proof. vm_compute; reflexivity. Qed.

Example fidelity_enforcement_16 :
  option_map an_semantic (grammar_analyzer (u8 "Az 1–35. §, a 37–151. §, a 153–176. §, a 177. § (3) bekezdése, 178–179. §, a 180. § (1) bekezdés b)–d) pontja, a 180. § (2) bekezdése, a 181–196. §, a 197. § (1)–(2) és (4)–(5) bekezdése, a 198–199. §, a 200. § (1)–(3) és (5)–(6) bekezdése, a 201–204. §, a 206–208. §, a 212. §, a 214–217. §, a 220. §, a 222–224. §, a 228. §, a 230. §, a 232. §, a 233. § (1) bekezdés b) pontja és (2) bekezdés a)–c) és e) pontja, a 235–255. §, a 257–260. §, a 261. § (2)–(5) bekezdése és (6) bekezdés b)–d) pontja, a 262–290. §, a 291. § (1), (2), és (4)–(10) bekezdése, a 292–313. § és a 315–317. § 2013. július 1-jén lép hatályba.")) =
  Some [EnforcementDate (Some ((mk_ref None (RRange (u8 "1") (u8 "35")) RNone RNone RNone))) (EDate (mk_date 2013 7 1)) None;
        EnforcementDate (Some ((mk_ref None (RRange (u8 "37") (u8 "151")) RNone RNone RNone))) (EDate (mk_date 2013 7 1)) None;
        EnforcementDate (Some ((mk_ref None (RRange (u8 "153") (u8 "176")) RNone RNone RNone))) (EDate (mk_date 2013 7 1)) None;
        EnforcementDate (Some ((mk_ref None (RId (u8 "177")) (RId (u8 "3")) RNone RNone))) (EDate (mk_date 2013 7 1)) None;
        EnforcementDate (Some ((mk_ref None (RRange (u8 "178") (u8 "179")) RNone RNone RNone))) (EDate (mk_date 2013 7 1)) None;
        EnforcementDate (Some ((mk_ref None (RId (u8 "180")) (RId (u8 "1")) (RRange (u8 "b") (u8 "d")) RNone))) (EDate (mk_date 2013 7 1)) None;
        EnforcementDate (Some ((mk_ref None (RId (u8 "180")) (RId (u8 "2")) RNone RNone))) (EDate (mk_date 2013 7 1)) None;
        EnforcementDate (Some ((mk_ref None (RRange (u8 "181") (u8 "196")) RNone RNone RNone))) (EDate (mk_date 2013 7 1)) None;
        EnforcementDate (Some ((mk_ref None (RId (u8 "197")) (RRange (u8 "1") (u8 "2")) RNone RNone))) (EDate (mk_date 2013 7 1)) None;
        EnforcementDate (Some ((mk_ref None (RId (u8 "197")) (RRange (u8 "4") (u8 "5")) RNone RNone))) (EDate (mk_date 2013 7 1)) None;
        EnforcementDate (Some ((mk_ref None (RRange (u8 "198") (u8 "199")) RNone RNone RNone))) (EDate (mk_date 2013 7 1)) None;
        EnforcementDate (Some ((mk_ref None (RId (u8 "200")) (RRange (u8 "1") (u8 "3")) RNone RNone))) (EDate (mk_date 2013 7 1)) None;
        EnforcementDate (Some ((mk_ref None (RId (u8 "200")) (RRange (u8 "5") (u8 "6")) RNone RNone))) (EDate (mk_date 2013 7 1)) None;
        EnforcementDate (Some ((mk_ref None (RRange (u8 "201") (u8 "204")) RNone RNone RNone))) (EDate (mk_date 2013 7 1)) None;
        EnforcementDate (Some ((mk_ref None (RRange (u8 "206") (u8 "208")) RNone RNone RNone))) (EDate (mk_date 2013 7 1)) None;
        EnforcementDate (Some ((mk_ref None (RId (u8 "212")) RNone RNone RNone))) (EDate (mk_date 2013 7 1)) None;
        EnforcementDate (Some ((mk_ref None (RRange (u8 "214") (u8 "217")) RNone RNone RNone))) (EDate (mk_date 2013 7 1)) None;
        EnforcementDate (Some ((mk_ref None (RId (u8 "220")) RNone RNone RNone))) (EDate (mk_date 2013 7 1)) None;
        EnforcementDate (Some ((mk_ref None (RRange (u8 "222") (u8 "224")) RNone RNone RNone))) (EDate (mk_date 2013 7 1)) None;
        EnforcementDate (Some ((mk_ref None (RId (u8 "228")) RNone RNone RNone))) (EDate (mk_date 2013 7 1)) None;
        EnforcementDate (Some ((mk_ref None (RId (u8 "230")) RNone RNone RNone))) (EDate (mk_date 2013 7 1)) None;
        EnforcementDate (Some ((mk_ref None (RId (u8 "232")) RNone RNone RNone))) (EDate (mk_date 2013 7 1)) None;
        EnforcementDate (Some ((mk_ref None (RId (u8 "233")) (RId (u8 "1")) (RId (u8 "b")) RNone))) (EDate (mk_date 2013 7 1)) None;
        EnforcementDate (Some ((mk_ref None (RId (u8 "233")) (RId (u8 "2")) (RRange (u8 "a") (u8 "c")) RNone))) (EDate (mk_date 2013 7 1)) None;
        EnforcementDate (Some ((mk_ref None (RId (u8 "233")) (RId (u8 "2")) (RId (u8 "e")) RNone))) (EDate (mk_date 2013 7 1)) None;
        EnforcementDate (Some ((mk_ref None (RRange (u8 "235") (u8 "255")) RNone RNone RNone))) (EDate (mk_date 2013 7 1)) None;
        EnforcementDate (Some ((mk_ref None (RRange (u8 "257") (u8 "260")) RNone RNone RNone))) (EDate (mk_date 2013 7 1)) None;
        EnforcementDate (Some ((mk_ref None (RId (u8 "261")) (RRange (u8 "2") (u8 "5")) RNone RNone))) (EDate (mk_date 2013 7 1)) None;
        EnforcementDate (Some ((mk_ref None (RId (u8 "261")) (RId (u8 "6")) (RRange (u8 "b") (u8 "d")) RNone))) (EDate (mk_date 2013 7 1)) None;
        EnforcementDate (Some ((mk_ref None (RRange (u8 "262") (u8 "290")) RNone RNone RNone))) (EDate (mk_date 2013 7 1)) None;
        EnforcementDate (Some ((mk_ref None (RId (u8 "291")) (RRange (u8 "1") (u8 "2")) RNone RNone))) (EDate (mk_date 2013 7 1)) None;
        EnforcementDate (Some ((mk_ref None (RId (u8 "291")) (RRange (u8 "4") (u8 "10")) RNone RNone))) (EDate (mk_date 2013 7 1)) None;
        EnforcementDate (Some ((mk_ref None (RRange (u8 "292") (u8 "313")) RNone RNone RNone))) (EDate (mk_date 2013 7 1)) None;
        EnforcementDate (Some ((mk_ref None (RRange (u8 "315") (u8 "317")) RNone RNone RNone))) (EDate (mk_date 2013 7 1)) None].
Proof. vm_compute; reflexivity. Qed.

Example fidelity_enforcement_17 :
  option_map an_semantic (grammar_analyzer (u8 "A 35. §, a 41–46. §, a 48. §, az 50. § a–i) pontja, az 50. § l–m) pontja, az 51. §, a 74. § (1) bekezdése, a 75–77. §, a 78. § a) és b) pontja, a 79–86. §, a 87. §, a 99–109. §, a 110. § a) pontja és a 146–148. § a kihirdetést követő 16. napon lép hatályba.")) =
  Some [EnforcementDate (Some ((mk_ref None (RId (u8 "35")) RNone RNone RNone))) (EDaysAfterPublication 16) None;
        EnforcementDate (Some ((mk_ref None (RRange (u8 "41") (u8 "46")) RNone RNone RNone))) (EDaysAfterPublication 16) None;
        EnforcementDate (Some ((mk_ref None (RId (u8 "48")) RNone RNone RNone))) (EDaysAfterPublication 16) None;
        EnforcementDate (Some ((mk_ref None (RId (u8 "50")) RNone (RRange (u8 "a") (u8 "i")) RNone))) (EDaysAfterPublication 16) None;
        EnforcementDate (Some ((mk_ref None (RId (u8 "50")) RNone (RRange (u8 "l") (u8 "m")) RNone))) (EDaysAfterPublication 16) None;
        EnforcementDate (Some ((mk_ref None (RId (u8 "51")) RNone RNone RNone))) (EDaysAfterPublication 16) None;
        EnforcementDate (Some ((mk_ref None (RId (u8 "74")) (RId (u8 "1")) RNone RNone))) (EDaysAfterPublication 16) None;
        EnforcementDate (Some ((mk_ref None (RRange (u8 "75") (u8 "77")) RNone RNone RNone))) (EDaysAfterPublication 16) None;
        EnforcementDate (Some ((mk_ref None (RId (u8 "78")) RNone (RRange (u8 "a") (u8 "b")) RNone))) (EDaysAfterPublication 16) None;
        EnforcementDate (Some ((mk_ref None (RRange (u8 "79") (u8 "86")) RNone RNone RNone))) (EDaysAfterPublication 16) None;
        EnforcementDate (Some ((mk_ref None (RId (u8 "87")) RNone RNone RNone))) (EDaysAfterPublication 16) None;
        EnforcementDate (Some ((mk_ref None (RRange (u8 "99") (u8 "109")) RNone RNone RNone))) (EDaysAfterPublication 16) None;
        EnforcementDate (Some ((mk_ref None (RId (u8 "110")) RNone (RId (u8 "a")) RNone))) (EDaysAfterPublication 16) None;
        EnforcementDate (Some ((mk_ref None (RRange (u8 "146") (u8 "148")) RNone RNone RNone))) (EDaysAfterPublication 16) None].
Proof. vm_compute; reflexivity. Qed.

Example fidelity_enforcement_18 :
  option_map an_semantic (grammar_analyzer (u8 "Az 55–66. §, a 70. § és a 72. § a) pontja, a 73. § a) és b) pontja 2019. szeptember 1-jén lép hatályba.")) =
  Some [EnforcementDate (Some ((mk_ref None (RRange (u8 "55") (u8 "66")) RNone RNone RNone))) (EDate (mk_date 2019 9 1)) None;
        EnforcementDate (Some ((mk_ref None (RId (u8 "70")) RNone RNone RNone))) (EDate (mk_date 2019 9 1)) None;
        EnforcementDate (Some ((mk_ref None (RId (u8 "72")) RNone (RId (u8 "a")) RNone))) (EDate (mk_date 2019 9 1)) None;
        EnforcementDate (Some ((mk_ref None (RId (u8 "73")) RNone (RRange (u8 "a") (u8 "b")) RNone))) (EDate (mk_date 2019 9 1)) None].
Proof. vm_compute; reflexivity. Qed.

Example fidelity_enforcement_19 :
  option_map an_semantic (grammar_analyzer (u8 "A 33. §, a 47. §, az 50. § j–k) és n) pontja, a 74. § (2) bekezdése, a 78. § c) pontja, a 97. § és a 110. § b) pontja 2020. január 1-jén lép hatályba.")) =
  Some [EnforcementDate (Some ((mk_ref None (RId (u8 "33")) RNone RNone RNone))) (EDate (mk_date 2020 1 1)) None;
        EnforcementDate (Some ((mk_ref None (RId (u8 "47")) RNone RNone RNone))) (EDate (mk_date 2020 1 1)) None;
        EnforcementDate (Some ((mk_ref None (RId (u8 "50")) RNone (RRange (u8 "j") (u8 "k")) RNone))) (EDate (mk_date 2020 1 1)) None;
        EnforcementDate (Some ((mk_ref None (RId (u8 "50")) RNone (RId (u8 "n")) RNone))) (EDate (mk_date 2020 1 1)) None;
        EnforcementDate (Some ((mk_ref None (RId (u8 "74")) (RId (u8 "2")) RNone RNone))) (EDate (mk_date 2020 1 1)) None;
        EnforcementDate (Some ((mk_ref None (RId (u8 "78")) RNone (RId (u8 "c")) RNone))) (EDate (mk_date 2020 1 1)) None;
        EnforcementDate (Some ((mk_ref None (RId (u8 "97")) RNone RNone RNone))) (EDate (mk_date 2020 1 1)) None;
        EnforcementDate (Some ((mk_ref None (RId (u8 "110")) RNone (RId (u8 "b")) RNone))) (EDate (mk_date 2020 1 1)) None].
Proof. vm_compute; reflexivity. Qed.

Example fidelity_enforcement_20 :
  option_map an_semantic (grammar_analyzer (u8 "Ez a törvény a kihirdetését követő hónap első napján lép hatályba.")) =
  Some [EnforcementDate None (EDayInMonthAfterPublication 1 1) None].
Proof. vm_compute; reflexivity. Qed.

Example fidelity_enforcement_21 :
  option_map an_semantic (grammar_analyzer (u8 "Ez a törvény a kihirdetését követő hónap 15. napján lép hatályba.")) =
  Some [EnforcementDate None (EDayInMonthAfterPublication 15 1) None].
Proof. vm_compute; reflexivity. Qed.

Example fidelity_enforcement_22 :
  option_map an_semantic (grammar_analyzer (u8 "Ez a törvény a kihirdetését követő második hónap első napján lép hatályba.")) =
  Some [EnforcementDate None (EDayInMonthAfterPublication 1 2) None].
Proof. vm_compute; reflexivity. Qed.

Example fidelity_enforcement_23 :
  option_map an_semantic (grammar_analyzer (u8 "A 39–41. § a kihirdetést követő második hónap ötödik napján lép hatályba.")) =
  Some [EnforcementDate (Some ((mk_ref None (RRange (u8 "39") (u8 "41")) RNone RNone RNone))) (EDayInMonthAfterPublication 5 2) None].
Proof. vm_compute; reflexivity. Qed.

Example fidelity_enforcement_24 :
  option_map an_semantic (grammar_analyzer (u8 "Ez a törvény – a (2) bekezdésben meghatározott kivétellel – a kihirdetését követő napon lép hatályba, és 2019. december 31-én hatályát veszti.")) =
  Some [EnforcementDate None (EDaysAfterPublication 1) (Some ((mk_date 2019 12 31)))].
Proof. vm_compute; reflexivity. Qed.

Example fidelity_enforcement_25 :
  option_map an_semantic (grammar_analyzer (u8 "Ez a törvény – a (2)–(5) bekezdésben foglalt kivétellel – a kihirdetését követő napon lép hatályba, és ez a törvény 2019. február 10-én a hatályát veszti.")) =
  Some [EnforcementDate None (EDaysAfterPublication 1) (Some ((mk_date 2019 2 10)))].
Proof. vm_compute; reflexivity. Qed.

Example fidelity_enforcement_26 :
  option_map an_semantic (grammar_analyzer (u8 "Ez a törvény – a (2)–(9) bekezdésben meghatározott kivétellel – 2014. január 1-jén lép hatályba, és 2015. december 31-én hatályát veszti.")) =
  Some [EnforcementDate None (EDate (mk_date 2014 1 1)) (Some ((mk_date 2015 12 31)))].
Proof. vm_compute; reflexivity. Qed.

Example fidelity_enforcement_27 :
  option_map an_semantic (grammar_analyzer (u8 "Ez a törvény – a (2) bekezdésben meghatározott kivétellel – 2018. november 1-jén lép hatályba, és 2022. december 31-én hatályát veszti.")) =
  Some [EnforcementDate None (EDate (mk_date 2018 11 1)) (Some ((mk_date 2022 12 31)))].
Proof. vm_compute; reflexivity. Qed.

Example fidelity_enforcement_28 :
  option_map an_semantic (grammar_analyzer (u8 "A 4. § (2) bekezdése; a 9. § (2) bekezdése; a 12. § (2) bekezdése; a 21. §; a 28. § (7) bekezdése; a 29. § (1) bekezdése; a 31. § (2)–(3) bekezdése; a 32. § (2) bekezdése; a 34. § (2) bekezdése; a 40. § (3)–(4) bekezdése; a 42. § (1) bekezdése; a 47. § (2) bekezdése; a 63. § (2) bekezdése; a 65. § (1) bekezdése; a 69. § (4)–(5) bekezdése; a 76. § (7)–(8) bekezdése; a 81. § (1) bekezdése; a 84. § (1)–(2) bekezdése; a 87. §; a 96. § 2021. január 1-jén lép hatályba.")) =
  Some [EnforcementDate (Some ((mk_ref None (RId (u8 "4")) (RId (u8 "2")) RNone RNone))) (EDate (mk_date 2021 1 1)) None;
        EnforcementDate (Some ((mk_ref None (RId (u8 "9")) (RId (u8 "2")) RNone RNone))) (EDate (mk_date 2021 1 1)) None;
        EnforcementDate (Some ((mk_ref None (RId (u8 "12")) (RId (u8 "2")) RNone RNone))) (EDate (mk_date 2021 1 1)) None;
        EnforcementDate (Some ((mk_ref None (RId (u8 "21")) RNone RNone RNone))) (EDate (mk_date 2021 1 1)) None;
        EnforcementDate (Some ((mk_ref None (RId (u8 "28")) (RId (u8 "7")) RNone RNone))) (EDate (mk_date 2021 1 1)) None;
        EnforcementDate (Some ((mk_ref None (RId (u8 "29")) (RId (u8 "1")) RNone RNone))) (EDate (mk_date 2021 1 1)) None;
        EnforcementDate (Some ((mk_ref None (RId (u8 "31")) (RRange (u8 "2") (u8 "3")) RNone RNone))) (EDate (mk_date 2021 1 1)) None;
        EnforcementDate (Some ((mk_ref None (RId (u8 "32")) (RId (u8 "2")) RNone RNone))) (EDate (mk_date 2021 1 1)) None;
        EnforcementDate (Some ((mk_ref None (RId (u8 "34")) (RId (u8 "2")) RNone RNone))) (EDate (mk_date 2021 1 1)) None;
        EnforcementDate (Some ((mk_ref None (RId (u8 "40")) (RRange (u8 "3") (u8 "4")) RNone RNone))) (EDate (mk_date 2021 1 1)) None;
        EnforcementDate (Some ((mk_ref None (RId (u8 "42")) (RId (u8 "1")) RNone RNone))) (EDate (mk_date 2021 1 1)) None;
        EnforcementDate (Some ((mk_ref None (RId (u8 "47")) (RId (u8 "2")) RNone RNone))) (EDate (mk_date 2021 1 1)) None;
        EnforcementDate (Some ((mk_ref None (RId (u8 "63")) (RId (u8 "2")) RNone RNone))) (EDate (mk_date 2021 1 1)) None;
        EnforcementDate (Some ((mk_ref None (RId (u8 "65")) (RId (u8 "1")) RNone RNone))) (EDate (mk_date 2021 1 1)) None;
        EnforcementDate (Some ((mk_ref None (RId (u8 "69")) (RRange (u8 "4") (u8 "5")) RNone RNone))) (EDate (mk_date 2021 1 1)) None;
        EnforcementDate (Some ((mk_ref None (RId (u8 "76")) (RRange (u8 "7") (u8 "8")) RNone RNone))) (EDate (mk_date 2021 1 1)) None;
        EnforcementDate (Some ((mk_ref None (RId (u8 "81")) (RId (u8 "1")) RNone RNone))) (EDate (mk_date 2021 1 1)) None;
        EnforcementDate (Some ((mk_ref None (RId (u8 "84")) (RRange (u8 "1") (u8 "2")) RNone RNone))) (EDate (mk_date 2021 1 1)) None;
        EnforcementDate (Some ((mk_ref None (RId (u8 "87")) RNone RNone RNone))) (EDate (mk_date 2021 1 1)) None;
        EnforcementDate (Some ((mk_ref None (RId (u8 "96")) RNone RNone RNone))) (EDate (mk_date 2021 1 1)) None].
Proof. vm_compute; reflexivity. Qed.


(** * test_text_amendment.py *)

Example fidelity_text_amendment_1 :
  option_map an_semantic (grammar_analyzer (u8 "A Bv. tv. 12. § (7) bekezdésében a „(4)–(5a) bekezdésben” szövegrész helyébe a „(4)–(5a) és (5c) bekezdésben” szöveg lép.")) =
  Some [TextAmendment (mk_ref (Some (u8 "Bv. tv.")) (RId (u8 "12")) (RId (u8 "7")) RNone RNone) (u8 "(4)–(5a) bekezdésben") (u8 "(4)–(5a) és (5c) bekezdésben")].
Proof. vm_compute; reflexivity. Qed.

Example fidelity_text_amendment_2 :
  option_map an_semantic (grammar_analyzer (u8 "A Bv. tv. 12. § (8) bekezdésében a „(3)–(5a) bekezdés” szövegrész helyébe a „(3)–(5a) és (5c) bekezdés” szöveg, valamint a „(4)–(5a) bekezdés” szövegrészek helyébe a „(4)–(5a) és (5c) bekezdés” szöveg lép.")) =
  Some [TextAmendment (mk_ref (Some (u8 "Bv. tv.")) (RId (u8 "12")) (RId (u8 "8")) RNone RNone) (u8 "(3)–(5a) bekezdés") (u8 "(3)–(5a) és (5c) bekezdés");
        TextAmendment (mk_ref (Some (u8 "Bv. tv.")) (RId (u8 "12")) (RId (u8 "8")) RNone RNone) (u8 "(4)–(5a) bekezdés") (u8 "(4)–(5a) és (5c) bekezdés")].
Proof. vm_compute; reflexivity. Qed.

Example fidelity_text_amendment_3 :
  option_map an_semantic (grammar_analyzer (u8 "A Ptk. 7:43. § (3) bekezdése a „Semmis” szövegrész helyett az „Érvénytelen” szöveggel lép hatályba.")) =
  Some [TextAmendment (mk_ref (Some (u8 "Ptk.")) (RId (u8 "7:43")) (RId (u8 "3")) RNone RNone) (u8 "Semmis") (u8 "Érvénytelen")].
Proof. vm_compute; reflexivity. Qed.

Example fidelity_text_amendment_4 :
  option_map an_semantic (grammar_analyzer (u8 "A Ptk. 4:129. § (2) bekezdése az „átmeneti nevelésbe vett vagy tartós nevelésbe vett” szövegrész helyett a „nevelésbe vett” szöveggel, az „a gyermeket a tartós nevelésbe vételt vagy az örökbefogadhatóvá nyilvánítást követően” szövegrész helyett az „a nevelésbe vett, örökbefogadható gyermeket” szöveggel lép hatályba.")) =
  Some [TextAmendment (mk_ref (Some (u8 "Ptk.")) (RId (u8 "4:129")) (RId (u8 "2")) RNone RNone) (u8 "átmeneti nevelésbe vett vagy tartós nevelésbe vett") (u8 "nevelésbe vett");
        TextAmendment (mk_ref (Some (u8 "Ptk.")) (RId (u8 "4:129")) (RId (u8 "2")) RNone RNone) (u8 "a gyermeket a tartós nevelésbe vételt vagy az örökbefogadhatóvá nyilvánítást követően") (u8 "a nevelésbe vett, örökbefogadható gyermeket")].
Proof. vm_compute; reflexivity. Qed.

Example fidelity_text_amendment_5 :
  option_map an_semantic (grammar_analyzer (u8 "A Ptk. 3:186. § (1) bekezdés b) pontjában és a 3:263. § (1) bekezdés b) pontjában „az utolsó beszámoló szerinti üzleti év könyveinek lezárása óta kimutatott, az előző üzleti évi” szövegrész helyébe „a közbenső mérlegben kimutatott” szöveg lép.")) =
  Some [TextAmendment (mk_ref (Some (u8 "Ptk.")) (RId (u8 "3:186")) (RId (u8 "1")) (RId (u8 "b")) RNone) (u8 "az utolsó beszámoló szerinti üzleti év könyveinek lezárása óta kimutatott, az előző üzleti évi") (u8 "a közbenső mérlegben kimutatott");
        TextAmendment (mk_ref (Some (u8 "Ptk.")) (RId (u8 "3:263")) (RId (u8 "1")) (RId (u8 "b")) RNone) (u8 "az utolsó beszámoló szerinti üzleti év könyveinek lezárása óta kimutatott, az előző üzleti évi") (u8 "a közbenső mérlegben kimutatott")].
Proof. vm_compute; reflexivity. Qed.

Example fidelity_text_amendment_6 :
  option_map an_semantic (grammar_analyzer (u8 "A Polgári Törvénykönyvről szóló 2013. évi V. törvény 3:88. § (2) bekezdésében a „tárgyévi adózott eredménye, illetve” szövegrész helyébe az „az előző üzleti évi adózott eredménnyel kiegészített” szöveg lép.")) =
  Some [TextAmendment (mk_ref (Some (u8 "2013. évi V. törvény")) (RId (u8 "3:88")) (RId (u8 "2")) RNone RNone) (u8 "tárgyévi adózott eredménye, illetve") (u8 "az előző üzleti évi adózott eredménnyel kiegészített")].
Proof. vm_compute; reflexivity. Qed.

Example fidelity_text_amendment_7 :
  option_map an_semantic (grammar_analyzer (u8 "A Polgári Törvénykönyvről szóló 2013. évi V. törvény  3:331. § (3) bekezdésében a „jogtanácsosa” szövegrészek helyébe a „kamarai jogtanácsosa” szöveg lép.")) =
  Some [TextAmendment (mk_ref (Some (u8 "2013. évi V. törvény")) (RId (u8 "3:331")) (RId (u8 "3")) RNone RNone) (u8 "jogtanácsosa") (u8 "kamarai jogtanácsosa")].
Proof. vm_compute; reflexivity. Qed.

Example fidelity_text_amendment_8 :
  option_map an_semantic (grammar_analyzer (u8 "A Teszt tv. 28. §-ában az „idézőjelek „idézőjelekben” jellegű” szövegrész helyébe a  „„na ne” ” szövegrész lép.")) =
  Some [TextAmendment (mk_ref (Some (u8 "Teszt tv.")) (RId (u8 "28")) RNone RNone RNone) (u8 "idézőjelek „idézőjelekben” jellegű") (u8 "„na ne”")].
Proof. vm_compute; reflexivity. Qed.

Example fidelity_text_amendment_9 :
  option_map an_semantic (grammar_analyzer (u8 "A Teszt tv. 29. §-ában az „idézőjelek„ idéző„j”elekben ”jellegű” szövegrész helyébe a  „ „na ne”” szövegrész lép.")) =
  Some [TextAmendment (mk_ref (Some (u8 "Teszt tv.")) (RId (u8 "29")) RNone RNone RNone) (u8 "idézőjelek„ idéző„j”elekben ”jellegű") (u8 "„na ne”")].
Proof. vm_compute; reflexivity. Qed.

Example fidelity_text_amendment_10 :
  option_map an_semantic (grammar_analyzer (u8 "A Btk. 294. § (1) bekezdésében és 296. § (1) bekezdésében az „előnyt kér, az előnyt” szövegrész helyébe a „jogtalan előnyt kér, a jogtalan előnyt”, az „előny kérőjével” szövegrész helyébe a „jogtalan előny kérőjével” szöveg lép.")) =
  Some [TextAmendment (mk_ref (Some (u8 "Btk.")) (RId (u8 "294")) (RId (u8 "1")) RNone RNone) (u8 "előnyt kér, az előnyt") (u8 "jogtalan előnyt kér, a jogtalan előnyt");
        TextAmendment (mk_ref (Some (u8 "Btk.")) (RId (u8 "294")) (RId (u8 "1")) RNone RNone) (u8 "előny kérőjével") (u8 "jogtalan előny kérőjével");
        TextAmendment (mk_ref (Some (u8 "Btk.")) (RId (u8 "296")) (RId (u8 "1")) RNone RNone) (u8 "előnyt kér, az előnyt") (u8 "jogtalan előnyt kér, a jogtalan előnyt");
        TextAmendment (mk_ref (Some (u8 "Btk.")) (RId (u8 "296")) (RId (u8 "1")) RNone RNone) (u8 "előny kérőjével") (u8 "jogtalan előny kérőjével")].
Proof. vm_compute; reflexivity. Qed.


(** * test_article_title_amendment.py *)

Example fidelity_title_amendment_1 :
  option_map an_semantic (grammar_analyzer (u8 "A Ptk. 5:99. § címében az „átruházása” szövegrész helyébe az „átruházása és megterhelése” szöveg lép.")) =
  Some [ArticleTitleAmendment (mk_ref (Some (u8 "Ptk.")) (RId (u8 "5:99")) RNone RNone RNone) (u8 "átruházása") (u8 "átruházása és megterhelése")].
Proof. vm_compute; reflexivity. Qed.

Example fidelity_title_amendment_2 :
  option_map an_semantic (grammar_analyzer (u8 "A Ptk. 6:534. § címe az „életviszonyok” szövegrész helyett az „értékviszonyok” szöveggel lép hatályba.")) =
  Some [ArticleTitleAmendment (mk_ref (Some (u8 "Ptk.")) (RId (u8 "6:534")) RNone RNone RNone) (u8 "életviszonyok") (u8 "értékviszonyok")].
Proof. vm_compute; reflexivity. Qed.


(** * test_repeals.py *)

Example fidelity_repeal_1 :
  option_map an_semantic (grammar_analyzer (u8 "Nem lép hatályba a Ptk. 3:329. § (3) bekezdése.")) =
  Some [Repeal (ARef (mk_ref (Some (u8 "Ptk.")) (RId (u8 "3:329")) (RId (u8 "3")) RNone RNone)) None].
Proof. vm_compute; reflexivity. Qed.

Example fidelity_repeal_2 :
  option_map an_semantic (grammar_analyzer (u8 "Nem lép hatályba a Ptk. 3:404. § (4) bekezdése.")) =
  Some [Repeal (ARef (mk_ref (Some (u8 "Ptk.")) (RId (u8 "3:404")) (RId (u8 "4")) RNone RNone)) None].
Proof. vm_compute; reflexivity. Qed.

Example fidelity_repeal_3 :
  option_map an_semantic (grammar_analyzer (u8 "Nem lép hatályba a Ptk. 5:96. § (3) bekezdésében az „A zálogjogosulti bizományos kérheti, hogy az ingatlan-nyilvántartás, a lajstrom vagy a hitelbiztosítéki nyilvántartás zálogjogosultként feltüntesse.” szövegrész.")) =
  Some [Repeal (ARef (mk_ref (Some (u8 "Ptk.")) (RId (u8 "5:96")) (RId (u8 "3")) RNone RNone)) (Some (u8 "A zálogjogosulti bizományos kérheti, hogy az ingatlan-nyilvántartás, a lajstrom vagy a hitelbiztosítéki nyilvántartás zálogjogosultként feltüntesse."))].
Proof. vm_compute; reflexivity. Qed.

Example fidelity_repeal_4 :
  option_map an_semantic (grammar_analyzer (u8 "Nem lép hatályba az Iktv. 116. § f) pontja.")) =
  Some [Repeal (ARef (mk_ref (Some (u8 "Iktv.")) (RId (u8 "116")) RNone (RId (u8 "f")) RNone)) None].
Proof. vm_compute; reflexivity. Qed.

Example fidelity_repeal_5 :
  option_map an_semantic (grammar_analyzer (u8 "Hatályát veszti a Kttv. 164. § (2) bekezdése.")) =
  Some [Repeal (ARef (mk_ref (Some (u8 "Kttv.")) (RId (u8 "164")) (RId (u8 "2")) RNone RNone)) None].
Proof. vm_compute; reflexivity. Qed.

Example fidelity_repeal_6 :
  option_map an_semantic (grammar_analyzer (u8 "Hatályát veszti a Pft. 18. § (1) bekezdés a) pontjában az „és a jogi személyiséggel nem rendelkező gazdasági társaság” szövegrész.")) =
  Some [Repeal (ARef (mk_ref (Some (u8 "Pft.")) (RId (u8 "18")) (RId (u8 "1")) (RId (u8 "a")) RNone)) (Some (u8 "és a jogi személyiséggel nem rendelkező gazdasági társaság"))].
Proof. vm_compute; reflexivity. Qed.

Example fidelity_repeal_7 :
  option_map an_semantic (grammar_analyzer (u8 "Hatályát veszti a Jöt. 116/B. § (1) bekezdésében a „, jogi személyiség nélküli gazdasági társaság” szövegrész.")) =
  Some [Repeal (ARef (mk_ref (Some (u8 "Jöt.")) (RId (u8 "116/B")) (RId (u8 "1")) RNone RNone)) (Some (u8 ", jogi személyiség nélküli gazdasági társaság"))].
Proof. vm_compute; reflexivity. Qed.

Example fidelity_repeal_8 :
  option_map an_semantic (grammar_analyzer (u8 "Hatályát veszti az Eva tv. 2. § (3) bekezdés a) és e) pontjában, 11. § (4) bekezdésében, 18. § (5) és(10) bekezdésében, 19. § (1) és(2) bekezdésében, 22. § (4) és(10) bekezdésében az „, a jogi személyiség nélküli gazdasági társaság” szövegrész.")) =
  Some [Repeal (ARef (mk_ref (Some (u8 "Eva tv.")) (RId (u8 "2")) (RId (u8 "3")) (RId (u8 "a")) RNone)) (Some (u8 ", a jogi személyiség nélküli gazdasági társaság"));
        Repeal (ARef (mk_ref (Some (u8 "Eva tv.")) (RId (u8 "2")) (RId (u8 "3")) (RId (u8 "e")) RNone)) (Some (u8 ", a jogi személyiség nélküli gazdasági társaság"));
        Repeal (ARef (mk_ref (Some (u8 "Eva tv.")) (RId (u8 "11")) (RId (u8 "4")) RNone RNone)) (Some (u8 ", a jogi személyiség nélküli gazdasági társaság"));
        Repeal (ARef (mk_ref (Some (u8 "Eva tv.")) (RId (u8 "18")) (RId (u8 "5")) RNone RNone)) (Some (u8 ", a jogi személyiség nélküli gazdasági társaság"));
        Repeal (ARef (mk_ref (Some (u8 "Eva tv.")) (RId (u8 "18")) (RId (u8 "10")) RNone RNone)) (Some (u8 ", a jogi személyiség nélküli gazdasági társaság"));
        Repeal (ARef (mk_ref (Some (u8 "Eva tv.")) (RId (u8 "19")) (RRange (u8 "1") (u8 "2")) RNone RNone)) (Some (u8 ", a jogi személyiség nélküli gazdasági társaság"));
        Repeal (ARef (mk_ref (Some (u8 "Eva tv.")) (RId (u8 "22")) (RId (u8 "4")) RNone RNone)) (Some (u8 ", a jogi személyiség nélküli gazdasági társaság"));
        Repeal (ARef (mk_ref (Some (u8 "Eva tv.")) (RId (u8 "22")) (RId (u8 "10")) RNone RNone)) (Some (u8 ", a jogi személyiség nélküli gazdasági társaság"))].
Proof. vm_compute; reflexivity. Qed.

Example fidelity_repeal_9 :
  option_map an_semantic (grammar_analyzer (u8 "Hatályát veszti a Polgári Törvénykönyvről szóló 2013. évi V. törvény 6:155. § (2) bekezdése.")) =
  Some [Repeal (ARef (mk_ref (Some (u8 "2013. évi V. törvény")) (RId (u8 "6:155")) (RId (u8 "2")) RNone RNone)) None].
Proof. vm_compute; reflexivity. Qed.

Example fidelity_repeal_10 :
  option_map an_semantic (grammar_analyzer (u8 "Hatályát veszti a Ptk. 8:6. § a), l), n) és p) pontja.")) =
  Some [Repeal (ARef (mk_ref (Some (u8 "Ptk.")) (RId (u8 "8:6")) RNone (RId (u8 "a")) RNone)) None;
        Repeal (ARef (mk_ref (Some (u8 "Ptk.")) (RId (u8 "8:6")) RNone (RId (u8 "l")) RNone)) None;
        Repeal (ARef (mk_ref (Some (u8 "Ptk.")) (RId (u8 "8:6")) RNone (RId (u8 "n")) RNone)) None;
        Repeal (ARef (mk_ref (Some (u8 "Ptk.")) (RId (u8 "8:6")) RNone (RId (u8 "p")) RNone)) None].
Proof. vm_compute; reflexivity. Qed.

Example fidelity_repeal_11 :
  option_map an_semantic (grammar_analyzer (u8 "Hatályát veszti az Flt. 39. § (3) bekezdés a) pontjában az „a pályakezdők munkanélküli segélye, az előnyugdíj”, valamint az „az álláskeresést ösztönző juttatás” szövegrész.")) =
  Some [Repeal (ARef (mk_ref (Some (u8 "Flt.")) (RId (u8 "39")) (RId (u8 "3")) (RId (u8 "a")) RNone)) (Some (u8 "a pályakezdők munkanélküli segélye, az előnyugdíj"));
        Repeal (ARef (mk_ref (Some (u8 "Flt.")) (RId (u8 "39")) (RId (u8 "3")) (RId (u8 "a")) RNone)) (Some (u8 "az álláskeresést ösztönző juttatás"))].
Proof. vm_compute; reflexivity. Qed.

Example fidelity_repeal_12 :
  option_map an_semantic (grammar_analyzer (u8 "Hatályát veszti a Büntető Törvénykönyvről szóló 2012. évi C. törvény 388. § (4) bekezdés a) pont ag) és ah) alpontja.")) =
  Some [Repeal (ARef (mk_ref (Some (u8 "2012. évi C. törvény")) (RId (u8 "388")) (RId (u8 "4")) (RId (u8 "a")) (RRange (u8 "ag") (u8 "ah")))) None].
Proof. vm_compute; reflexivity. Qed.

Example fidelity_repeal_13 :
  option_map an_semantic (grammar_analyzer (u8 "Hatályát veszti a Btk. 297. §-át megelőző alcíme.")) =
  Some [Repeal (ASRef (mk_sref (Some (u8 "Btk.")) None None None None None (Some (mk_combo BEFORE_WITHOUT_ARTICLE (u8 "297"))))) None].
Proof. vm_compute; reflexivity. Qed.

Example fidelity_repeal_14 :
  option_map an_semantic (grammar_analyzer (u8 "Hatályát veszti a Btk. „Kényszermunka” című alcíme.")) =
  Some [Repeal (ASRef (mk_sref (Some (u8 "Btk.")) None None None None (Some (u8 "Kényszermunka")) None)) None].
Proof. vm_compute; reflexivity. Qed.
