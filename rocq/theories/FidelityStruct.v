(* The test data of tests/cheap/structure/data, run through the model: the expected trees of the
   project's own tests. *)
From Verif Require Import PyBase LineModel DateModel RefModel TreeModel StructModel.

(* tests/cheap/utils.py:39-57: one line of a test text *)
Fixpoint quick_parts (bold : bool) (spaces : Z) (s : pystr) : list part :=
  match s with
  | [] => []
  | c :: t =>
      if (c =? 32)%N then
        (if (spaces =? 0)%Z then [mk_part (f_of_Z 5) [c] bold] else []) ++ quick_parts bold (spaces + 1)%Z t
      else mk_part (f_of_Z (5 + spaces * 5)) [c] bold :: quick_parts bold 0 t
  end.
Definition occurs (s text : pystr) : bool := match find_sub s text with Some _ => true | None => false end.
Definition quick_line (s : pystr) : line :=
  let bold := occurs (u8 "<BOLD>") s in
  let justified := negb (occurs (u8 "<NJ>") s) in
  let s := replace_str (u8 "<BOLD>") (u8 "      ") s in
  let s := replace_str (u8 "<NJ>") (u8 "    ") s in
  mk_line (quick_parts bold 1 s) (f_of_Z (if justified then 5 else 40)).
Definition quick_parse (lines : list pystr) : res act :=
  parse_act (u8 "2345 évi I. törvény") (mk_date 2345 6 7) (u8 "A tesztelésről") (map quick_line lines).
Definition quick_act (preamble : pystr) (elements : list act_child) : act :=
  mk_act (u8 "2345 évi I. törvény") (mk_date 2345 6 7) (u8 "A tesztelésről") preamble elements.

(* tests/cheap/structure/data/ambigous_points.txt, .json *)
Example fidelity_ambigous_points :
  quick_parse
  [u8 "1. §  (1) Don't forget";
   u8 "            1. There can be numeric points.";
   u8 "            2. with subpoints like";
   u8 "                a) subpoint 1,";
   u8 "                b) subpoint 2.";
   u8 "            3. So there's that.";
   u8 "      (2) Oh by the way";
   u8 "            a) It can be";
   u8 "                1. The other way around too";
   u8 "                2. just so you know.";
   u8 "            b) Man, this sucks.";
   u8 "      (3) By the way 2, if there is only one point reference like";
   u8 "          a) we still should not parse it as points,";
   u8 "          because it's wrong.";
   u8 "      (4) This is especially true if there is a fake numeric point like";
   u8 "          1. but then there are";
   u8 "          a) one real subpoint";
   u8 "          b) two real subpoints";
   u8 "          Then it should be alphabetic subpoints.";
   u8 "          Even without indentation.";
   u8 "      (5) This is especially true if there is a fake numeric point like";
   u8 "          1. but then there are";
   u8 "          a) one real subpoint";
   u8 "          b) two real subpoints";
   u8 "          However, if there is";
   u8 "          2. another point, then we can do nothing but have numeric subpoints.";
   u8 "          Such is life.";
   u8 ""]
  = Ok (quick_act (u8 "")
  [AArticle (mk_article (u8 "1") None [mk_sae KParagraph (Some (u8 "1")) None (Some (u8 "Don't forget")) (Some [ChSae (mk_sae KNumericPoint (Some (u8 "1")) (Some (u8 "There can be numeric points.")) None None None NO_META);
 ChSae (mk_sae KNumericPoint (Some (u8 "2")) None (Some (u8 "with subpoints like")) (Some [ChSae (mk_sae KAlphabeticSubpoint (Some (u8 "a")) (Some (u8 "subpoint 1,")) None None None NO_META);
 ChSae (mk_sae KAlphabeticSubpoint (Some (u8 "b")) (Some (u8 "subpoint 2.")) None None None NO_META)]) None NO_META);
 ChSae (mk_sae KNumericPoint (Some (u8 "3")) (Some (u8 "So there's that.")) None None None NO_META)]) None NO_META;
 mk_sae KParagraph (Some (u8 "2")) None (Some (u8 "Oh by the way")) (Some [ChSae (mk_sae KAlphabeticPoint (Some (u8 "a")) None (Some (u8 "It can be")) (Some [ChSae (mk_sae KNumericSubpoint (Some (u8 "1")) (Some (u8 "The other way around too")) None None None NO_META);
 ChSae (mk_sae KNumericSubpoint (Some (u8 "2")) (Some (u8 "just so you know.")) None None None NO_META)]) None NO_META);
 ChSae (mk_sae KAlphabeticPoint (Some (u8 "b")) (Some (u8 "Man, this sucks.")) None None None NO_META)]) None NO_META;
 mk_sae KParagraph (Some (u8 "3")) (Some (u8 "By the way 2, if there is only one point reference like a) we still should not parse it as points, because it's wrong.")) None None None NO_META;
 mk_sae KParagraph (Some (u8 "4")) None (Some (u8 "This is especially true if there is a fake numeric point like 1. but then there are")) (Some [ChSae (mk_sae KAlphabeticPoint (Some (u8 "a")) (Some (u8 "one real subpoint")) None None None NO_META);
 ChSae (mk_sae KAlphabeticPoint (Some (u8 "b")) (Some (u8 "two real subpoints")) None None None NO_META)]) (Some (u8 "Then it should be alphabetic subpoints. Even without indentation.")) NO_META;
 mk_sae KParagraph (Some (u8 "5")) None (Some (u8 "This is especially true if there is a fake numeric point like")) (Some [ChSae (mk_sae KNumericPoint (Some (u8 "1")) None (Some (u8 "but then there are")) (Some [ChSae (mk_sae KAlphabeticSubpoint (Some (u8 "a")) (Some (u8 "one real subpoint")) None None None NO_META);
 ChSae (mk_sae KAlphabeticSubpoint (Some (u8 "b")) (Some (u8 "two real subpoints")) None None None NO_META)]) (Some (u8 "However, if there is")) NO_META);
 ChSae (mk_sae KNumericPoint (Some (u8 "2")) (Some (u8 "another point, then we can do nothing but have numeric subpoints.")) None None None NO_META)]) (Some (u8 "Such is life.")) NO_META])]).
Proof. vm_compute. reflexivity. Qed.

(* tests/cheap/structure/data/article_mini.txt, .json *)
Example fidelity_article_mini :
  quick_parse
  [u8 "";
   u8 "     <BOLD>   1. A foglalkoztatás elősegítéséről és a munkanélküliek ellátásáról szóló 1991. évi IV. törvény";
   u8 "              módosítása";
   u8 "";
   u8 "     1. § (1) A foglalkoztatás elősegítéséről és a munkanélküliek ellátásáról szóló 1991. évi IV. törvény (a továbbiakban: Flt.)";
   u8 "              4. § (1) bekezdése helyébe a következő rendelkezés lép:";
   u8 ""]
  = Ok (quick_act (u8 "")
  [AStruct (mk_struct KSubtitle (u8 "1") (u8 "A foglalkoztatás elősegítéséről és a munkanélküliek ellátásáról szóló 1991. évi IV. törvény módosítása") false);
   AArticle (mk_article (u8 "1") None [mk_sae KParagraph (Some (u8 "1")) (Some (u8 "A foglalkoztatás elősegítéséről és a munkanélküliek ellátásáról szóló 1991. évi IV. törvény (a továbbiakban: Flt.) 4. § (1) bekezdése helyébe a következő rendelkezés lép:")) None None None NO_META])]).
Proof. vm_compute. reflexivity. Qed.

(* tests/cheap/structure/data/articles_with_title.txt, .json *)
Example fidelity_articles_with_title :
  quick_parse
  [u8 "    1:1. § [A törvény hatálya]";
   u8 "          E törvény a mellérendeltség és egyenjogúság elve szerint szabályozza a személyek alapvető vagyoni és személyi";
   u8 "          viszonyait.";
   u8 "";
   u8 "    1:2. § [Értelmezési";
   u8 "            alapelv]";
   u8 "       (1) E törvény rendelkezéseit Magyarország alkotmányos rendjével összhangban kell értelmezni.";
   u8 "       (2) A polgári jogi viszonyokra vonatkozó jogszabályokat e törvénnyel összhangban kell értelmezni.";
   u8 ""]
  = Ok (quick_act (u8 "")
  [AArticle (mk_article (u8 "1:1") (Some (u8 "A törvény hatálya")) [mk_sae KParagraph None (Some (u8 "E törvény a mellérendeltség és egyenjogúság elve szerint szabályozza a személyek alapvető vagyoni és személyi viszonyait.")) None None None NO_META]);
   AArticle (mk_article (u8 "1:2") (Some (u8 "Értelmezési alapelv")) [mk_sae KParagraph (Some (u8 "1")) (Some (u8 "E törvény rendelkezéseit Magyarország alkotmányos rendjével összhangban kell értelmezni.")) None None None NO_META;
 mk_sae KParagraph (Some (u8 "2")) (Some (u8 "A polgári jogi viszonyokra vonatkozó jogszabályokat e törvénnyel összhangban kell értelmezni.")) None None None NO_META])]).
Proof. vm_compute. reflexivity. Qed.

(* tests/cheap/structure/data/btk_mod_1.txt, .json *)
Example fidelity_btk_mod_1 :
  quick_parse
  [u8 "1. § (1) A jogtalan támadást úgy kell tekinteni, mintha az a védekező életének kioltására is irányult volna, ha";
   u8 "     a) azt személy ellen";
   u8 "         aa) éjjel,";
   u8 "         ab) fegyveresen,";
   u8 "         ac) felfegyverkezve vagy";
   u8 "         ad) csoportosan";
   u8 "     követik el,";
   u8 "     b) az a lakásba";
   u8 "         ba) éjjel,";
   u8 "         bb) fegyveresen,";
   u8 "         bc) felfegyverkezve vagy";
   u8 "         bd) csoportosan";
   u8 "     történő jogtalan behatolás, vagy";
   u8 "     c) az a lakáshoz tartozó bekerített helyre fegyveresen történő jogtalan behatolás.";
   u8 ""]
  = Ok (quick_act (u8 "")
  [AArticle (mk_article (u8 "1") None [mk_sae KParagraph (Some (u8 "1")) None (Some (u8 "A jogtalan támadást úgy kell tekinteni, mintha az a védekező életének kioltására is irányult volna, ha")) (Some [ChSae (mk_sae KAlphabeticPoint (Some (u8 "a")) None (Some (u8 "azt személy ellen")) (Some [ChSae (mk_sae KAlphabeticSubpoint (Some (u8 "aa")) (Some (u8 "éjjel,")) None None None NO_META);
 ChSae (mk_sae KAlphabeticSubpoint (Some (u8 "ab")) (Some (u8 "fegyveresen,")) None None None NO_META);
 ChSae (mk_sae KAlphabeticSubpoint (Some (u8 "ac")) (Some (u8 "felfegyverkezve vagy")) None None None NO_META);
 ChSae (mk_sae KAlphabeticSubpoint (Some (u8 "ad")) (Some (u8 "csoportosan")) None None None NO_META)]) (Some (u8 "követik el,")) NO_META);
 ChSae (mk_sae KAlphabeticPoint (Some (u8 "b")) None (Some (u8 "az a lakásba")) (Some [ChSae (mk_sae KAlphabeticSubpoint (Some (u8 "ba")) (Some (u8 "éjjel,")) None None None NO_META);
 ChSae (mk_sae KAlphabeticSubpoint (Some (u8 "bb")) (Some (u8 "fegyveresen,")) None None None NO_META);
 ChSae (mk_sae KAlphabeticSubpoint (Some (u8 "bc")) (Some (u8 "felfegyverkezve vagy")) None None None NO_META);
 ChSae (mk_sae KAlphabeticSubpoint (Some (u8 "bd")) (Some (u8 "csoportosan")) None None None NO_META)]) (Some (u8 "történő jogtalan behatolás, vagy")) NO_META);
 ChSae (mk_sae KAlphabeticPoint (Some (u8 "c")) (Some (u8 "az a lakáshoz tartozó bekerített helyre fegyveresen történő jogtalan behatolás.")) None None None NO_META)]) None NO_META])]).
Proof. vm_compute. reflexivity. Qed.

(* tests/cheap/structure/data/dashes.txt, .json *)
Example fidelity_dashes :
  quick_parse
  [u8 "Ebben a torvenyben sok a kotojeles-";
   u8 "szoveg, ahol figyelni kell a space-ekre";
   u8 "";
   u8 "                      I. CÍM";
   u8 "                      A KOTOJELES UNDI-";
   u8 "                      SZERKEZETEK";
   u8 "";
   u8 "1. § [Értelmezési-";
   u8 "     alapelv]";
   u8 "     Ebben a torvenyben mas sok a kotojeles-szoveg, a";
   u8 "     sortores, illetve a legrosszabb, a kotojeles-";
   u8 "     sortores, ami viszont egy szo space nelkul.";
   u8 "";
   u8 "2. § Meg a felsorolasoknal is kulonosen-";
   u8 "     fontos, hogy";
   u8 "     a) ne legyen";
   u8 "     b) elrontva";
   u8 "     a kotojeles-";
   u8 "     forma.";
   u8 ""]
  = Ok (quick_act (u8 "Ebben a torvenyben sok a kotojeles-szoveg, ahol figyelni kell a space-ekre")
  [AStruct (mk_struct KTitle (u8 "1") (u8 "A KOTOJELES UNDI-SZERKEZETEK") false);
   AArticle (mk_article (u8 "1") (Some (u8 "Értelmezési-alapelv")) [mk_sae KParagraph None (Some (u8 "Ebben a torvenyben mas sok a kotojeles-szoveg, a sortores, illetve a legrosszabb, a kotojeles-sortores, ami viszont egy szo space nelkul.")) None None None NO_META]);
   AArticle (mk_article (u8 "2") None [mk_sae KParagraph None None (Some (u8 "Meg a felsorolasoknal is kulonosen-fontos, hogy")) (Some [ChSae (mk_sae KAlphabeticPoint (Some (u8 "a")) (Some (u8 "ne legyen")) None None None NO_META);
 ChSae (mk_sae KAlphabeticPoint (Some (u8 "b")) (Some (u8 "elrontva")) None None None NO_META)]) (Some (u8 "a kotojeles-forma.")) NO_META])]).
Proof. vm_compute. reflexivity. Qed.

(* tests/cheap/structure/data/multiline_articles.txt, .json *)
Example fidelity_multiline_articles :
  quick_parse
  [u8 "";
   u8 "            1. §  Egy sorban levo szakasz.";
   u8 "            2. §  Ket sorban";
   u8 "                  levo szakasz.";
   u8 "";
   u8 "            3. §  Sortores a szakasz elott.";
   u8 "";
   u8 "            4. §  Sortores a";
   u8 "";
   u8 "                  szakasz kozben.";
   u8 "            5. §  Vege.";
   u8 ""]
  = Ok (quick_act (u8 "")
  [AArticle (mk_article (u8 "1") None [mk_sae KParagraph None (Some (u8 "Egy sorban levo szakasz.")) None None None NO_META]);
   AArticle (mk_article (u8 "2") None [mk_sae KParagraph None (Some (u8 "Ket sorban levo szakasz.")) None None None NO_META]);
   AArticle (mk_article (u8 "3") None [mk_sae KParagraph None (Some (u8 "Sortores a szakasz elott.")) None None None NO_META]);
   AArticle (mk_article (u8 "4") None [mk_sae KParagraph None (Some (u8 "Sortores a szakasz kozben.")) None None None NO_META]);
   AArticle (mk_article (u8 "5") None [mk_sae KParagraph None (Some (u8 "Vege.")) None None None NO_META])]).
Proof. vm_compute. reflexivity. Qed.

(* tests/cheap/structure/data/numeric_subpoints.txt, .json *)
Example fidelity_numeric_subpoints :
  quick_parse
  [u8 "        34. § E törvény alkalmazásában:";
   u8 "               1. egyéni vállalkozó: az Szja tv. szerint egyéni vállalkozónak minősülő természetes személy (az egyéni";
   u8 "                   vállalkozóról és az egyéni cégről szóló törvény szerinti egyéni vállalkozói nyilvántartásban szereplő";
   u8 "                   természetes személy akkor is, ha a nyilvántartásban rögzített tevékenysége ingatlan-bérbeadás vagy egyéb";
   u8 "                   szálláshely-szolgáltatás), valamint a gyógyszerészeti magántevékenységet, falugondnoki tevékenységet,";
   u8 "                   tanyagondnoki tevékenységet végző természetes személy, a szociális szolgáltató tevékenység folytatásához";
   u8 "                   szükséges engedéllyel rendelkező természetes személy;";
   u8 "               2. fogvatartott: akinek őrizetét rendelték el; az a személy, aki olyan bűnügyi felügyelet alatt áll, amelynek során";
   u8 "                   a bíróság előírta számára, hogy lakást, egyéb helyiséget, intézményt, vagy ahhoz tartozó bekerített helyet";
   u8 "                   engedély nélkül nem hagyhat el; a letartóztatott; az elzárást, a szabadságvesztést töltő személy; valamint";
   u8 "                   a kényszergyógykezelés vagy előzetes kényszergyógykezelés alatt álló személy;";
   u8 "               3. harmadik állam: a Tbj.-ben ilyenként meghatározott állam;";
   u8 "               4. az iskolaszövetkezet és a nappali rendszerű oktatás keretében tanulmányokat folytató tanuló, hallgató tagja";
   u8 "                   között fennálló ilyen jogviszony tekintetében tanulmányokat folytató tanuló, hallgató: az a személy, aki";
   u8 "                   a) nappali rendszerű oktatás keretében a nemzeti köznevelésről szóló törvény szerinti tanulói";
   u8 "                          jogviszonnyal rendelkezik,";
   u8 "                   b) nappali rendszerű oktatás keretében a nemzeti felsőoktatásról szóló törvény szerinti nem szünetelő";
   u8 "                          (aktív) hallgatói jogviszonnyal rendelkezik, vagy";
   u8 "                   c) az a) vagy b) pont szerinti jogviszonya megszűnését követően diákigazolványra jogosult,";
   u8 "                          a diákigazolványra való jogosultsága lejártáig;";
   u8 "               5. kiegészítő tevékenységet folytató egyéni, társas vállalkozó: aki vállalkozói tevékenységet saját jogú";
   u8 "                   nyugdíjasként folytat, továbbá az az özvegyi nyugdíjban részesülő személy, aki a reá irányadó öregségi";
   u8 "                   nyugdíjkorhatárt betöltötte.";
   u8 "               6. kifizető: Art. szerinti kifizető";
   u8 "               7. külföldi kifizető: a belföldön állandó lakóhellyel, szokásos tartózkodási hellyel, székhellyel nem rendelkező";
   u8 "                   személy;";
   u8 "               8. mezőgazdasági őstermelő: az Szja tv. szerint mezőgazdasági őstermelőnek minősülő természetes személy;";
   u8 "               9. mezőgazdasági kistermelő: az Szja tv. szerint mezőgazdasági kistermelőnek minősülő természetes személy;";
   u8 "";
   u8 "              10. minimálbér: az év első napján érvényes kötelező legkisebb munkabér havi összege, kivéve az e törvény";
   u8 "                   egyéni és társas vállalkozókra vonatkozó rendelkezéseiben említett minimálbért, amely a tárgyhónap";
   u8 "                   első napján, a teljes munkaidőre érvényes garantált bérminimum havi összege, ha az egyéni vállalkozó";
   u8 "                   személyesen végzett főtevékenysége vagy a társas vállalkozó főtevékenysége legalább középfokú iskolai";
   u8 "                   végzettséget vagy középfokú szakképzettséget igényel, ennek hiányában az előzőek szerint meghatározott";
   u8 "                   minimálbér;";
   u8 "              11. munkaviszony:";
   u8 "                   a) az Mt-ben meghatározott munkaviszony,";
   u8 "                   b) a közalkalmazotti jogviszony,";
   u8 "                   c) a közszolgálati jogviszony, az állami szolgálati jogviszony, a kormányzati szolgálati viszony,";
   u8 "                   d) a bírósági jogviszony,";
   u8 "                   e) az igazságügyi alkalmazotti szolgálati viszony,";
   u8 "                   f) az ügyészségi szolgálati jogviszony,";
   u8 "                   g) a nevelőszülői foglalkoztatási jogviszony,";
   u8 "                   h) az ösztöndíjas foglalkoztatási jogviszony,";
   u8 "                   i) a közfoglalkoztatási jogviszony,";
   u8 "                   j) a Magyar Honvédség, a rendvédelmi szervek, az Országgyűlési Őrség, a polgári nemzetbiztonsági";
   u8 "                          szolgálatok, a Nemzeti Adó- és Vámhivatal hivatásos állományú tagjának e jogviszonya,";
   u8 "                   k) a Magyar Honvédség szerződéses állományú tagjának e jogviszonya,";
   u8 "                   l) a katonai szolgálatot teljesítő önkéntes tartalékos katona e jogviszonya,";
   u8 "                   m) a nemzeti felsőoktatásról szóló törvényben meghatározott hallgatói munkaszerződés alapján";
   u8 "                          létrejött munkaviszony,";
   u8 "                   n) a Független Rendészeti Panasztestület tagjának e jogviszonya,";
   u8 "                   o) az a)–n) alpont szerinti jogviszonynak megfelelő, külföldi jog alapján fennálló jogviszony, amely";
   u8 "                          alapján a munkát Magyarország vagy a szociális biztonsági rendszerek koordinálásáról szóló";
   u8 "                          közösségi rendelet hatálya alá tartozó másik tagállam területén végzik,";
   u8 "                   p) a rendvédelmi feladatokat ellátó szerv által a rendvédelmi egészségkárosodási járadék";
   u8 "                          folyósításának időtartama, valamint a honvédségi szervezet vagy a Katonai Nemzetbiztonsági";
   u8 "                          Szolgálat által megállapított honvédelmi egészségkárosodási járadék folyósításának időtartama;";
   u8 "              12. nevelőszülői foglalkoztatási jogviszony: a gyermekek védelméről és a gyámügyi igazgatásról szóló 1997. évi";
   u8 "                   XXXI. törvény szerinti nevelőszülői foglalkoztatási jogviszony, amely teljes munkaidős foglalkoztatási";
   u8 "                   jogviszonynak minősül;";
   u8 "              13. saját jogú nyugdíjas: a társadalombiztosítás ellátásaira és a magánnyugdíjra jogosultakról, valamint";
   u8 "                   e szolgáltatások fedezetéről szóló törvény szerint saját jogú nyugdíjasnak minősülő természetes személy;";
   u8 "              14. társas vállalkozás: a közkereseti társaság, a betéti társaság, a korlátolt felelősségű társaság, a közös vállalat,";
   u8 "                   az egyesülés, az európai gazdasági egyesülés, a szabadalmi ügyvivői iroda, a szabadalmi ügyvivői társaság,";
   u8 "                   az ügyvédi iroda, a közjegyzői iroda, a végrehajtói iroda, az egyéni cég.";
   u8 ""]
  = Ok (quick_act (u8 "")
  [AArticle (mk_article (u8 "34") None [mk_sae KParagraph None None (Some (u8 "E törvény alkalmazásában:")) (Some [ChSae (mk_sae KNumericPoint (Some (u8 "1")) (Some (u8 "egyéni vállalkozó: az Szja tv. szerint egyéni vállalkozónak minősülő természetes személy (az egyéni vállalkozóról és az egyéni cégről szóló törvény szerinti egyéni vállalkozói nyilvántartásban szereplő természetes személy akkor is, ha a nyilvántartásban rögzített tevékenysége ingatlan-bérbeadás vagy egyéb szálláshely-szolgáltatás), valamint a gyógyszerészeti magántevékenységet, falugondnoki tevékenységet, tanyagondnoki tevékenységet végző természetes személy, a szociális szolgáltató tevékenység folytatásához szükséges engedéllyel rendelkező természetes személy;")) None None None NO_META);
 ChSae (mk_sae KNumericPoint (Some (u8 "2")) (Some (u8 "fogvatartott: akinek őrizetét rendelték el; az a személy, aki olyan bűnügyi felügyelet alatt áll, amelynek során a bíróság előírta számára, hogy lakást, egyéb helyiséget, intézményt, vagy ahhoz tartozó bekerített helyet engedély nélkül nem hagyhat el; a letartóztatott; az elzárást, a szabadságvesztést töltő személy; valamint a kényszergyógykezelés vagy előzetes kényszergyógykezelés alatt álló személy;")) None None None NO_META);
 ChSae (mk_sae KNumericPoint (Some (u8 "3")) (Some (u8 "harmadik állam: a Tbj.-ben ilyenként meghatározott állam;")) None None None NO_META);
 ChSae (mk_sae KNumericPoint (Some (u8 "4")) None (Some (u8 "az iskolaszövetkezet és a nappali rendszerű oktatás keretében tanulmányokat folytató tanuló, hallgató tagja között fennálló ilyen jogviszony tekintetében tanulmányokat folytató tanuló, hallgató: az a személy, aki")) (Some [ChSae (mk_sae KAlphabeticSubpoint (Some (u8 "a")) (Some (u8 "nappali rendszerű oktatás keretében a nemzeti köznevelésről szóló törvény szerinti tanulói jogviszonnyal rendelkezik,")) None None None NO_META);
 ChSae (mk_sae KAlphabeticSubpoint (Some (u8 "b")) (Some (u8 "nappali rendszerű oktatás keretében a nemzeti felsőoktatásról szóló törvény szerinti nem szünetelő (aktív) hallgatói jogviszonnyal rendelkezik, vagy")) None None None NO_META);
 ChSae (mk_sae KAlphabeticSubpoint (Some (u8 "c")) (Some (u8 "az a) vagy b) pont szerinti jogviszonya megszűnését követően diákigazolványra jogosult, a diákigazolványra való jogosultsága lejártáig;")) None None None NO_META)]) None NO_META);
 ChSae (mk_sae KNumericPoint (Some (u8 "5")) (Some (u8 "kiegészítő tevékenységet folytató egyéni, társas vállalkozó: aki vállalkozói tevékenységet saját jogú nyugdíjasként folytat, továbbá az az özvegyi nyugdíjban részesülő személy, aki a reá irányadó öregségi nyugdíjkorhatárt betöltötte.")) None None None NO_META);
 ChSae (mk_sae KNumericPoint (Some (u8 "6")) (Some (u8 "kifizető: Art. szerinti kifizető")) None None None NO_META);
 ChSae (mk_sae KNumericPoint (Some (u8 "7")) (Some (u8 "külföldi kifizető: a belföldön állandó lakóhellyel, szokásos tartózkodási hellyel, székhellyel nem rendelkező személy;")) None None None NO_META);
 ChSae (mk_sae KNumericPoint (Some (u8 "8")) (Some (u8 "mezőgazdasági őstermelő: az Szja tv. szerint mezőgazdasági őstermelőnek minősülő természetes személy;")) None None None NO_META);
 ChSae (mk_sae KNumericPoint (Some (u8 "9")) (Some (u8 "mezőgazdasági kistermelő: az Szja tv. szerint mezőgazdasági kistermelőnek minősülő természetes személy;")) None None None NO_META);
 ChSae (mk_sae KNumericPoint (Some (u8 "10")) (Some (u8 "minimálbér: az év első napján érvényes kötelező legkisebb munkabér havi összege, kivéve az e törvény egyéni és társas vállalkozókra vonatkozó rendelkezéseiben említett minimálbért, amely a tárgyhónap első napján, a teljes munkaidőre érvényes garantált bérminimum havi összege, ha az egyéni vállalkozó személyesen végzett főtevékenysége vagy a társas vállalkozó főtevékenysége legalább középfokú iskolai végzettséget vagy középfokú szakképzettséget igényel, ennek hiányában az előzőek szerint meghatározott minimálbér;")) None None None NO_META);
 ChSae (mk_sae KNumericPoint (Some (u8 "11")) None (Some (u8 "munkaviszony:")) (Some [ChSae (mk_sae KAlphabeticSubpoint (Some (u8 "a")) (Some (u8 "az Mt-ben meghatározott munkaviszony,")) None None None NO_META);
 ChSae (mk_sae KAlphabeticSubpoint (Some (u8 "b")) (Some (u8 "a közalkalmazotti jogviszony,")) None None None NO_META);
 ChSae (mk_sae KAlphabeticSubpoint (Some (u8 "c")) (Some (u8 "a közszolgálati jogviszony, az állami szolgálati jogviszony, a kormányzati szolgálati viszony,")) None None None NO_META);
 ChSae (mk_sae KAlphabeticSubpoint (Some (u8 "d")) (Some (u8 "a bírósági jogviszony,")) None None None NO_META);
 ChSae (mk_sae KAlphabeticSubpoint (Some (u8 "e")) (Some (u8 "az igazságügyi alkalmazotti szolgálati viszony,")) None None None NO_META);
 ChSae (mk_sae KAlphabeticSubpoint (Some (u8 "f")) (Some (u8 "az ügyészségi szolgálati jogviszony,")) None None None NO_META);
 ChSae (mk_sae KAlphabeticSubpoint (Some (u8 "g")) (Some (u8 "a nevelőszülői foglalkoztatási jogviszony,")) None None None NO_META);
 ChSae (mk_sae KAlphabeticSubpoint (Some (u8 "h")) (Some (u8 "az ösztöndíjas foglalkoztatási jogviszony,")) None None None NO_META);
 ChSae (mk_sae KAlphabeticSubpoint (Some (u8 "i")) (Some (u8 "a közfoglalkoztatási jogviszony,")) None None None NO_META);
 ChSae (mk_sae KAlphabeticSubpoint (Some (u8 "j")) (Some (u8 "a Magyar Honvédség, a rendvédelmi szervek, az Országgyűlési Őrség, a polgári nemzetbiztonsági szolgálatok, a Nemzeti Adó- és Vámhivatal hivatásos állományú tagjának e jogviszonya,")) None None None NO_META);
 ChSae (mk_sae KAlphabeticSubpoint (Some (u8 "k")) (Some (u8 "a Magyar Honvédség szerződéses állományú tagjának e jogviszonya,")) None None None NO_META);
 ChSae (mk_sae KAlphabeticSubpoint (Some (u8 "l")) (Some (u8 "a katonai szolgálatot teljesítő önkéntes tartalékos katona e jogviszonya,")) None None None NO_META);
 ChSae (mk_sae KAlphabeticSubpoint (Some (u8 "m")) (Some (u8 "a nemzeti felsőoktatásról szóló törvényben meghatározott hallgatói munkaszerződés alapján létrejött munkaviszony,")) None None None NO_META);
 ChSae (mk_sae KAlphabeticSubpoint (Some (u8 "n")) (Some (u8 "a Független Rendészeti Panasztestület tagjának e jogviszonya,")) None None None NO_META);
 ChSae (mk_sae KAlphabeticSubpoint (Some (u8 "o")) (Some (u8 "az a)–n) alpont szerinti jogviszonynak megfelelő, külföldi jog alapján fennálló jogviszony, amely alapján a munkát Magyarország vagy a szociális biztonsági rendszerek koordinálásáról szóló közösségi rendelet hatálya alá tartozó másik tagállam területén végzik,")) None None None NO_META);
 ChSae (mk_sae KAlphabeticSubpoint (Some (u8 "p")) (Some (u8 "a rendvédelmi feladatokat ellátó szerv által a rendvédelmi egészségkárosodási járadék folyósításának időtartama, valamint a honvédségi szervezet vagy a Katonai Nemzetbiztonsági Szolgálat által megállapított honvédelmi egészségkárosodási járadék folyósításának időtartama;")) None None None NO_META)]) None NO_META);
 ChSae (mk_sae KNumericPoint (Some (u8 "12")) (Some (u8 "nevelőszülői foglalkoztatási jogviszony: a gyermekek védelméről és a gyámügyi igazgatásról szóló 1997. évi XXXI. törvény szerinti nevelőszülői foglalkoztatási jogviszony, amely teljes munkaidős foglalkoztatási jogviszonynak minősül;")) None None None NO_META);
 ChSae (mk_sae KNumericPoint (Some (u8 "13")) (Some (u8 "saját jogú nyugdíjas: a társadalombiztosítás ellátásaira és a magánnyugdíjra jogosultakról, valamint e szolgáltatások fedezetéről szóló törvény szerint saját jogú nyugdíjasnak minősülő természetes személy;")) None None None NO_META);
 ChSae (mk_sae KNumericPoint (Some (u8 "14")) (Some (u8 "társas vállalkozás: a közkereseti társaság, a betéti társaság, a korlátolt felelősségű társaság, a közös vállalat, az egyesülés, az európai gazdasági egyesülés, a szabadalmi ügyvivői iroda, a szabadalmi ügyvivői társaság, az ügyvédi iroda, a közjegyzői iroda, a végrehajtói iroda, az egyéni cég.")) None None None NO_META)]) None NO_META])]).
Proof. vm_compute. reflexivity. Qed.

(* tests/cheap/structure/data/parts.txt, .json *)
Example fidelity_parts :
  quick_parse
  [u8 "Preamble preamble.";
   u8 "";
   u8 "              ÁLTALÁNOS RÉSZ";
   u8 "";
   u8 "              I. FEJEZET";
   u8 "              ALAPVETŐ RENDELKEZÉSEK";
   u8 "";
   u8 "     <BOLD>   A törvényesség elve";
   u8 "";
   u8 "     1. § (1) Az elkövető büntetőjogi felelősségét csak olyan cselekmény miatt lehet megállapítani, amelyet – a nemzetközi jog";
   u8 "              általánosan elismert szabályai alapján büntetendő cselekmények kivételével – törvény az elkövetés idején büntetni";
   u8 "              rendelt.";
   u8 "";
   u8 "              KÜLÖNÖS RÉSZ";
   u8 "";
   u8 "              II. FEJEZET";
   u8 "              AZ EMBERIESSÉG ELLENI BŰNCSELEKMÉNYEK";
   u8 "";
   u8 "     <BOLD>   Népirtás";
   u8 "";
   u8 "     2. § (1) Aki valamely nemzeti, etnikai, faji vagy vallási csoport teljes vagy részleges megsemmisítése céljából";
   u8 "              a) a csoport tagjait megöli,";
   u8 "              b) a csoport tagjainak súlyos testi vagy lelki sérelmet okoz,";
   u8 "";
   u8 "              ZÁRÓ RÉSZ";
   u8 "";
   u8 "     <BOLD>   Értelmező rendelkezések";
   u8 "";
   u8 "     3. § (1) E törvény alkalmazásában";
   u8 ""]
  = Ok (quick_act (u8 "Preamble preamble.")
  [AStruct (mk_struct KPart (u8 "1") (u8 "") true);
   AStruct (mk_struct KChapter (u8 "1") (u8 "ALAPVETŐ RENDELKEZÉSEK") false);
   AStruct (mk_struct KSubtitle (u8 "") (u8 "A törvényesség elve") false);
   AArticle (mk_article (u8 "1") None [mk_sae KParagraph (Some (u8 "1")) (Some (u8 "Az elkövető büntetőjogi felelősségét csak olyan cselekmény miatt lehet megállapítani, amelyet – a nemzetközi jog általánosan elismert szabályai alapján büntetendő cselekmények kivételével – törvény az elkövetés idején büntetni rendelt.")) None None None NO_META]);
   AStruct (mk_struct KPart (u8 "2") (u8 "") true);
   AStruct (mk_struct KChapter (u8 "2") (u8 "AZ EMBERIESSÉG ELLENI BŰNCSELEKMÉNYEK") false);
   AStruct (mk_struct KSubtitle (u8 "") (u8 "Népirtás") false);
   AArticle (mk_article (u8 "2") None [mk_sae KParagraph (Some (u8 "1")) None (Some (u8 "Aki valamely nemzeti, etnikai, faji vagy vallási csoport teljes vagy részleges megsemmisítése céljából")) (Some [ChSae (mk_sae KAlphabeticPoint (Some (u8 "a")) (Some (u8 "a csoport tagjait megöli,")) None None None NO_META);
 ChSae (mk_sae KAlphabeticPoint (Some (u8 "b")) (Some (u8 "a csoport tagjainak súlyos testi vagy lelki sérelmet okoz,")) None None None NO_META)]) None NO_META]);
   AStruct (mk_struct KPart (u8 "3") (u8 "") true);
   AStruct (mk_struct KSubtitle (u8 "") (u8 "Értelmező rendelkezések") false);
   AArticle (mk_article (u8 "3") None [mk_sae KParagraph (Some (u8 "1")) (Some (u8 "E törvény alkalmazásában")) None None None NO_META])]).
Proof. vm_compute. reflexivity. Qed.

(* tests/cheap/structure/data/points.txt, .json *)
Example fidelity_points :
  quick_parse
  [u8 "            1. § (1) A gyámhatóságnak";
   u8 "                  a) 2014-ben az 1982. december 31. előtt,";
   u8 "                  b) 2015-ben az 1983. január 1. és 1994. december 31. között,";
   u8 "                  c) 2016-ban az 1995. január 1. és 2001. december 31. között,";
   u8 "                  d) 2017-ben a 2002. január 1. és 2007. december 31. között,";
   u8 "                  e) 2018-ban a 2008. január 1. és 2014. március 14. között";
   u8 "                  elrendelt – cselekvőképességet kizáró gondnokság alá helyezésről szóló, felülvizsgálati kötelezettséget nem";
   u8 "                  tartalmazó – határozatok felülvizsgálata iránt kell a bíróságon pert indítania.";
   u8 "               (2) A Ptk. hatálybalépése előtt hozott, felülvizsgálati kötelezettséget tartalmazó határozatok esetében a felülvizsgálati";
   u8 "                  eljárást a bírósági határozatban megjelölt időpontban, de legkésőbb a Ptk. hatálybalépésétől számított öt éven";
   u8 "                  belül kell a gyámhatóságnak megindítania.";
   u8 ""]
  = Ok (quick_act (u8 "")
  [AArticle (mk_article (u8 "1") None [mk_sae KParagraph (Some (u8 "1")) None (Some (u8 "A gyámhatóságnak")) (Some [ChSae (mk_sae KAlphabeticPoint (Some (u8 "a")) (Some (u8 "2014-ben az 1982. december 31. előtt,")) None None None NO_META);
 ChSae (mk_sae KAlphabeticPoint (Some (u8 "b")) (Some (u8 "2015-ben az 1983. január 1. és 1994. december 31. között,")) None None None NO_META);
 ChSae (mk_sae KAlphabeticPoint (Some (u8 "c")) (Some (u8 "2016-ban az 1995. január 1. és 2001. december 31. között,")) None None None NO_META);
 ChSae (mk_sae KAlphabeticPoint (Some (u8 "d")) (Some (u8 "2017-ben a 2002. január 1. és 2007. december 31. között,")) None None None NO_META);
 ChSae (mk_sae KAlphabeticPoint (Some (u8 "e")) (Some (u8 "2018-ban a 2008. január 1. és 2014. március 14. között")) None None None NO_META)]) (Some (u8 "elrendelt – cselekvőképességet kizáró gondnokság alá helyezésről szóló, felülvizsgálati kötelezettséget nem tartalmazó – határozatok felülvizsgálata iránt kell a bíróságon pert indítania.")) NO_META;
 mk_sae KParagraph (Some (u8 "2")) (Some (u8 "A Ptk. hatálybalépése előtt hozott, felülvizsgálati kötelezettséget tartalmazó határozatok esetében a felülvizsgálati eljárást a bírósági határozatban megjelölt időpontban, de legkésőbb a Ptk. hatálybalépésétől számított öt éven belül kell a gyámhatóságnak megindítania.")) None None None NO_META])]).
Proof. vm_compute. reflexivity. Qed.

(* tests/cheap/structure/data/points2.txt, .json *)
Example fidelity_points2 :
  quick_parse
  [u8 "     192. § E törvény";
   u8 "              a) 38. §-a az Alaptörvény 38. cikk (1) és (2) bekezdése,";
   u8 "              b) 66. § (2) bekezdés a) pontja az Alaptörvény 38. cikk (1) bekezdése";
   u8 "              alapján sarkalatosnak minősül.";
   u8 "";
   u8 "     193. § Ures sor, hogy hiba legyen";
   u8 ""]
  = Ok (quick_act (u8 "")
  [AArticle (mk_article (u8 "192") None [mk_sae KParagraph None None (Some (u8 "E törvény")) (Some [ChSae (mk_sae KAlphabeticPoint (Some (u8 "a")) (Some (u8 "38. §-a az Alaptörvény 38. cikk (1) és (2) bekezdése,")) None None None NO_META);
 ChSae (mk_sae KAlphabeticPoint (Some (u8 "b")) (Some (u8 "66. § (2) bekezdés a) pontja az Alaptörvény 38. cikk (1) bekezdése")) None None None NO_META)]) (Some (u8 "alapján sarkalatosnak minősül.")) NO_META]);
   AArticle (mk_article (u8 "193") None [mk_sae KParagraph None (Some (u8 "Ures sor, hogy hiba legyen")) None None None NO_META])]).
Proof. vm_compute. reflexivity. Qed.

(* tests/cheap/structure/data/points_right_aligned.txt, .json *)
Example fidelity_points_right_aligned :
  quick_parse
  [u8 "            1. § A szamozott pontok akkor is pontok, ha";
   u8 "                 1. 1 pontbol,";
   u8 "                 2. 2 pontbol,";
   u8 "                 3. 3 pontbol,";
   u8 "                 4. 4 pontbol,";
   u8 "                 5. 5 pontbol,";
   u8 "                 6. 6 pontbol,";
   u8 "                 7. 7 pontbol,";
   u8 "                 8. 8 pontbol,";
   u8 "                 9. 9 pontbol, vagy";
   u8 "                10. 10 pontbol,";
   u8 "                allnak.";
   u8 "            1. § Sot, akkor is, ha";
   u8 "                 1. 1 pontbol,";
   u8 "                 2. 2 pontbol,";
   u8 "                 3. 3 pontbol,";
   u8 "                 4. 4 pontbol,";
   u8 "                 5. 5 pontbol,";
   u8 "                 6. 6 pontbol,";
   u8 "                 7. 7 pontbol,";
   u8 "                 8. 8 pontbol,";
   u8 "                 9. 9 pontbol,";
   u8 "                10.  kilenc plusz";
   u8 "                    egy pontbol, vagy";
   u8 "                11. 11 pontbol,";
   u8 "                allnak.";
   u8 ""]
  = Ok (quick_act (u8 "")
  [AArticle (mk_article (u8 "1") None [mk_sae KParagraph None None (Some (u8 "A szamozott pontok akkor is pontok, ha")) (Some [ChSae (mk_sae KNumericPoint (Some (u8 "1")) (Some (u8 "1 pontbol,")) None None None NO_META);
 ChSae (mk_sae KNumericPoint (Some (u8 "2")) (Some (u8 "2 pontbol,")) None None None NO_META);
 ChSae (mk_sae KNumericPoint (Some (u8 "3")) (Some (u8 "3 pontbol,")) None None None NO_META);
 ChSae (mk_sae KNumericPoint (Some (u8 "4")) (Some (u8 "4 pontbol,")) None None None NO_META);
 ChSae (mk_sae KNumericPoint (Some (u8 "5")) (Some (u8 "5 pontbol,")) None None None NO_META);
 ChSae (mk_sae KNumericPoint (Some (u8 "6")) (Some (u8 "6 pontbol,")) None None None NO_META);
 ChSae (mk_sae KNumericPoint (Some (u8 "7")) (Some (u8 "7 pontbol,")) None None None NO_META);
 ChSae (mk_sae KNumericPoint (Some (u8 "8")) (Some (u8 "8 pontbol,")) None None None NO_META);
 ChSae (mk_sae KNumericPoint (Some (u8 "9")) (Some (u8 "9 pontbol, vagy")) None None None NO_META);
 ChSae (mk_sae KNumericPoint (Some (u8 "10")) (Some (u8 "10 pontbol,")) None None None NO_META)]) (Some (u8 "allnak.")) NO_META]);
   AArticle (mk_article (u8 "1") None [mk_sae KParagraph None None (Some (u8 "Sot, akkor is, ha")) (Some [ChSae (mk_sae KNumericPoint (Some (u8 "1")) (Some (u8 "1 pontbol,")) None None None NO_META);
 ChSae (mk_sae KNumericPoint (Some (u8 "2")) (Some (u8 "2 pontbol,")) None None None NO_META);
 ChSae (mk_sae KNumericPoint (Some (u8 "3")) (Some (u8 "3 pontbol,")) None None None NO_META);
 ChSae (mk_sae KNumericPoint (Some (u8 "4")) (Some (u8 "4 pontbol,")) None None None NO_META);
 ChSae (mk_sae KNumericPoint (Some (u8 "5")) (Some (u8 "5 pontbol,")) None None None NO_META);
 ChSae (mk_sae KNumericPoint (Some (u8 "6")) (Some (u8 "6 pontbol,")) None None None NO_META);
 ChSae (mk_sae KNumericPoint (Some (u8 "7")) (Some (u8 "7 pontbol,")) None None None NO_META);
 ChSae (mk_sae KNumericPoint (Some (u8 "8")) (Some (u8 "8 pontbol,")) None None None NO_META);
 ChSae (mk_sae KNumericPoint (Some (u8 "9")) (Some (u8 "9 pontbol,")) None None None NO_META);
 ChSae (mk_sae KNumericPoint (Some (u8 "10")) (Some (u8 "kilenc plusz egy pontbol, vagy")) None None None NO_META);
 ChSae (mk_sae KNumericPoint (Some (u8 "11")) (Some (u8 "11 pontbol,")) None None None NO_META)]) (Some (u8 "allnak.")) NO_META])]).
Proof. vm_compute. reflexivity. Qed.

(* tests/cheap/structure/data/simple.txt, .json *)
Example fidelity_simple :
  quick_parse
  [u8 "Torveny preambulummal";
   u8 "tobb sorban.";
   u8 "";
   u8 "1. § Ebben a torvenyben mas nincs.";
   u8 ""]
  = Ok (quick_act (u8 "Torveny preambulummal tobb sorban.")
  [AArticle (mk_article (u8 "1") None [mk_sae KParagraph None (Some (u8 "Ebben a torvenyben mas nincs.")) None None None NO_META])]).
Proof. vm_compute. reflexivity. Qed.

(* tests/cheap/structure/data/special_parts.txt, .json *)
Example fidelity_special_parts :
  quick_parse
  [u8 "";
   u8 "                                                             ÁLTALÁNOS RÉSZ";
   u8 "";
   u8 "                      I. CÍM";
   u8 "                      A JOGKÉPESSÉG KEZDETE ÉS MEGSZŰNÉSE";
   u8 "";
   u8 "             1. §  Dummy article blah blah.";
   u8 "";
   u8 "             2. § [Dummy title]";
   u8 "                 (1) Dummy paragraph.";
   u8 "                 (2) Dummy paragraph.";
   u8 "";
   u8 "                    II. CÍM";
   u8 "                    A HOLTNAK NYILVÁNÍTÁS";
   u8 "";
   u8 "             3. §  Dummy article blah blah.";
   u8 "";
   u8 "                                                         KÜLÖNÖS RÉSZ";
   u8 "                                                     A CSELEKVŐKÉPESSÉG";
   u8 "";
   u8 "                    I. CÍM";
   u8 "                    A CSELEKVŐKÉPESSÉG ÁLTALÁNOS SZABÁLYAI";
   u8 "";
   u8 "             4. §  Dummy article blah blah.";
   u8 "";
   u8 "                                                             ZÁRÓ RÉSZ";
   u8 "";
   u8 "                      I. CÍM";
   u8 "                      ÁLTALÁNOS RENDELKEZÉSEK";
   u8 "";
   u8 "             3:1. §  Dummy article blah blah.";
   u8 "             3:2. §  Dummy article blah blah.";
   u8 ""]
  = Ok (quick_act (u8 "")
  [AStruct (mk_struct KPart (u8 "1") (u8 "") true);
   AStruct (mk_struct KTitle (u8 "1") (u8 "A JOGKÉPESSÉG KEZDETE ÉS MEGSZŰNÉSE") false);
   AArticle (mk_article (u8 "1") None [mk_sae KParagraph None (Some (u8 "Dummy article blah blah.")) None None None NO_META]);
   AArticle (mk_article (u8 "2") (Some (u8 "Dummy title")) [mk_sae KParagraph (Some (u8 "1")) (Some (u8 "Dummy paragraph.")) None None None NO_META;
 mk_sae KParagraph (Some (u8 "2")) (Some (u8 "Dummy paragraph.")) None None None NO_META]);
   AStruct (mk_struct KTitle (u8 "2") (u8 "A HOLTNAK NYILVÁNÍTÁS") false);
   AArticle (mk_article (u8 "3") None [mk_sae KParagraph None (Some (u8 "Dummy article blah blah.")) None None None NO_META]);
   AStruct (mk_struct KPart (u8 "2") (u8 "") true);
   AStruct (mk_struct KTitle (u8 "1") (u8 "A CSELEKVŐKÉPESSÉG ÁLTALÁNOS SZABÁLYAI") false);
   AArticle (mk_article (u8 "4") None [mk_sae KParagraph None (Some (u8 "Dummy article blah blah.")) None None None NO_META]);
   AStruct (mk_struct KPart (u8 "3") (u8 "") true);
   AStruct (mk_struct KTitle (u8 "1") (u8 "ÁLTALÁNOS RENDELKEZÉSEK") false);
   AArticle (mk_article (u8 "3:1") None [mk_sae KParagraph None (Some (u8 "Dummy article blah blah.")) None None None NO_META]);
   AArticle (mk_article (u8 "3:2") None [mk_sae KParagraph None (Some (u8 "Dummy article blah blah.")) None None None NO_META])]).
Proof. vm_compute. reflexivity. Qed.

(* tests/cheap/structure/data/structural_elements_1.txt, .json *)
Example fidelity_structural_elements_1 :
  quick_parse
  [u8 "";
   u8 "                                                            ELSŐ KÖNYV";
   u8 "                                                     BEVEZETŐ RENDELKEZÉSEK";
   u8 "";
   u8 "             1:1. §  Dummy article blah blah.";
   u8 "             1:2. §  Dummy article blah blah.";
   u8 "";
   u8 "             1:3. §  Dummy article blah blah.";
   u8 "             1:4. §  Dummy article blah blah.";
   u8 "";
   u8 "                                                         MÁSODIK KÖNYV";
   u8 "                                                     AZ EMBER MINT JOGALANY";
   u8 "";
   u8 "                                                             ELSŐ RÉSZ";
   u8 "                                                          A JOGKÉPESSÉG";
   u8 "";
   u8 "                      I. CÍM";
   u8 "                      A JOGKÉPESSÉG KEZDETE ÉS MEGSZŰNÉSE";
   u8 "";
   u8 "             2:1. §  Dummy article blah blah.";
   u8 "";
   u8 "             2:2. § [Dummy title]";
   u8 "                   (1) Dummy paragraph.";
   u8 "                   (2) Dummy paragraph.";
   u8 "";
   u8 "                      II. CÍM";
   u8 "                      A HOLTNAK NYILVÁNÍTÁS";
   u8 "";
   u8 "             2:3. §  Dummy article blah blah.";
   u8 "";
   u8 "                                                           MÁSODIK RÉSZ";
   u8 "                                                       A CSELEKVŐKÉPESSÉG";
   u8 "";
   u8 "                      III. CÍM";
   u8 "                      A CSELEKVŐKÉPESSÉG ÁLTALÁNOS SZABÁLYAI";
   u8 "";
   u8 "             2:4. §  Dummy article blah blah.";
   u8 "";
   u8 "                                                         HARMADIK KÖNYV";
   u8 "                                                          A JOGI SZEMÉLY";
   u8 "";
   u8 "                                                             ELSŐ RÉSZ";
   u8 "                                               A JOGI SZEMÉLY ÁLTALÁNOS SZABÁLYAI";
   u8 "";
   u8 "                      I. CÍM";
   u8 "                      ÁLTALÁNOS RENDELKEZÉSEK";
   u8 "";
   u8 "             3:1. §  Dummy article blah blah.";
   u8 "             3:2. §  Dummy article blah blah.";
   u8 "";
   u8 "                      II. CÍM";
   u8 "                      A JOGI SZEMÉLY LÉTESÍTÉSE";
   u8 "";
   u8 "               <BOLD> I. Fejezet";
   u8 "               <BOLD> A létesítés szabadsága";
   u8 "";
   u8 "             3:3. §  Dummy article blah blah.";
   u8 "";
   u8 "               <BOLD> II. Fejezet";
   u8 "               <BOLD> A létesítő okirat";
   u8 "";
   u8 "             3:4. §  Dummy article blah blah.";
   u8 "";
   u8 "               <BOLD> III. Fejezet";
   u8 "               <BOLD> A gazdasági társaság szervezete";
   u8 "";
   u8 "               <BOLD> 1. A gazdasági társaság legfőbb szerve";
   u8 "";
   u8 "             3:5. §  Dummy article blah blah.";
   u8 "";
   u8 "               <BOLD> 2. Ügyvezetés és képviselet";
   u8 "";
   u8 "             3:6. §  Dummy article blah blah.";
   u8 "";
   u8 "               <BOLD> IV. Fejezet";
   u8 "               <BOLD> Másolat a gazdasági társaság szervezetéről";
   u8 "";
   u8 "               <BOLD> 1. Másolat a gazdasági társaság legfőbb szervéről";
   u8 "";
   u8 "             3:7. §  Dummy article blah blah.";
   u8 "";
   u8 "               <BOLD> 2. Másolat ay ügyvezetés és képviseletről";
   u8 "";
   u8 "             3:8. §  Dummy article blah blah.";
   u8 ""]
  = Ok (quick_act (u8 "")
  [AStruct (mk_struct KBook (u8 "1") (u8 "BEVEZETŐ RENDELKEZÉSEK") false);
   AArticle (mk_article (u8 "1:1") None [mk_sae KParagraph None (Some (u8 "Dummy article blah blah.")) None None None NO_META]);
   AArticle (mk_article (u8 "1:2") None [mk_sae KParagraph None (Some (u8 "Dummy article blah blah.")) None None None NO_META]);
   AArticle (mk_article (u8 "1:3") None [mk_sae KParagraph None (Some (u8 "Dummy article blah blah.")) None None None NO_META]);
   AArticle (mk_article (u8 "1:4") None [mk_sae KParagraph None (Some (u8 "Dummy article blah blah.")) None None None NO_META]);
   AStruct (mk_struct KBook (u8 "2") (u8 "AZ EMBER MINT JOGALANY") false);
   AStruct (mk_struct KPart (u8 "1") (u8 "A JOGKÉPESSÉG") false);
   AStruct (mk_struct KTitle (u8 "1") (u8 "A JOGKÉPESSÉG KEZDETE ÉS MEGSZŰNÉSE") false);
   AArticle (mk_article (u8 "2:1") None [mk_sae KParagraph None (Some (u8 "Dummy article blah blah.")) None None None NO_META]);
   AArticle (mk_article (u8 "2:2") (Some (u8 "Dummy title")) [mk_sae KParagraph (Some (u8 "1")) (Some (u8 "Dummy paragraph.")) None None None NO_META;
 mk_sae KParagraph (Some (u8 "2")) (Some (u8 "Dummy paragraph.")) None None None NO_META]);
   AStruct (mk_struct KTitle (u8 "2") (u8 "A HOLTNAK NYILVÁNÍTÁS") false);
   AArticle (mk_article (u8 "2:3") None [mk_sae KParagraph None (Some (u8 "Dummy article blah blah.")) None None None NO_META]);
   AStruct (mk_struct KPart (u8 "2") (u8 "A CSELEKVŐKÉPESSÉG") false);
   AStruct (mk_struct KTitle (u8 "3") (u8 "A CSELEKVŐKÉPESSÉG ÁLTALÁNOS SZABÁLYAI") false);
   AArticle (mk_article (u8 "2:4") None [mk_sae KParagraph None (Some (u8 "Dummy article blah blah.")) None None None NO_META]);
   AStruct (mk_struct KBook (u8 "3") (u8 "A JOGI SZEMÉLY") false);
   AStruct (mk_struct KPart (u8 "1") (u8 "A JOGI SZEMÉLY ÁLTALÁNOS SZABÁLYAI") false);
   AStruct (mk_struct KTitle (u8 "1") (u8 "ÁLTALÁNOS RENDELKEZÉSEK") false);
   AArticle (mk_article (u8 "3:1") None [mk_sae KParagraph None (Some (u8 "Dummy article blah blah.")) None None None NO_META]);
   AArticle (mk_article (u8 "3:2") None [mk_sae KParagraph None (Some (u8 "Dummy article blah blah.")) None None None NO_META]);
   AStruct (mk_struct KTitle (u8 "2") (u8 "A JOGI SZEMÉLY LÉTESÍTÉSE") false);
   AStruct (mk_struct KChapter (u8 "1") (u8 "A létesítés szabadsága") false);
   AArticle (mk_article (u8 "3:3") None [mk_sae KParagraph None (Some (u8 "Dummy article blah blah.")) None None None NO_META]);
   AStruct (mk_struct KChapter (u8 "2") (u8 "A létesítő okirat") false);
   AArticle (mk_article (u8 "3:4") None [mk_sae KParagraph None (Some (u8 "Dummy article blah blah.")) None None None NO_META]);
   AStruct (mk_struct KChapter (u8 "3") (u8 "A gazdasági társaság szervezete") false);
   AStruct (mk_struct KSubtitle (u8 "1") (u8 "A gazdasági társaság legfőbb szerve") false);
   AArticle (mk_article (u8 "3:5") None [mk_sae KParagraph None (Some (u8 "Dummy article blah blah.")) None None None NO_META]);
   AStruct (mk_struct KSubtitle (u8 "2") (u8 "Ügyvezetés és képviselet") false);
   AArticle (mk_article (u8 "3:6") None [mk_sae KParagraph None (Some (u8 "Dummy article blah blah.")) None None None NO_META]);
   AStruct (mk_struct KChapter (u8 "4") (u8 "Másolat a gazdasági társaság szervezetéről") false);
   AStruct (mk_struct KSubtitle (u8 "1") (u8 "Másolat a gazdasági társaság legfőbb szervéről") false);
   AArticle (mk_article (u8 "3:7") None [mk_sae KParagraph None (Some (u8 "Dummy article blah blah.")) None None None NO_META]);
   AStruct (mk_struct KSubtitle (u8 "2") (u8 "Másolat ay ügyvezetés és képviseletről") false);
   AArticle (mk_article (u8 "3:8") None [mk_sae KParagraph None (Some (u8 "Dummy article blah blah.")) None None None NO_META])]).
Proof. vm_compute. reflexivity. Qed.

(* tests/cheap/structure/data/structural_elements_2.txt, .json *)
Example fidelity_structural_elements_2 :
  quick_parse
  [u8 "";
   u8 "                                                            ELSŐ KÖNYV";
   u8 "                                                     BEVEZETŐ RENDELKEZÉSEK";
   u8 "";
   u8 "             1:1. §  Dummy article blah blah.";
   u8 "             1:2. §  Dummy article blah blah.";
   u8 "";
   u8 "             1:3. §  Dummy article blah blah.";
   u8 "             1:4. §  Dummy article blah blah.";
   u8 "";
   u8 "                                                         MÁSODIK KÖNYV";
   u8 "                                                     AZ EMBER MINT JOGALANY";
   u8 "";
   u8 "                                                             ELSŐ RÉSZ";
   u8 "                                                          A JOGKÉPESSÉG";
   u8 "";
   u8 "                      I. CÍM";
   u8 "                      A JOGKÉPESSÉG KEZDETE ÉS MEGSZŰNÉSE";
   u8 "";
   u8 "             2:1. §  Dummy article blah blah.";
   u8 "";
   u8 "             2:2. § [Dummy title]";
   u8 "                   (1) Dummy paragraph.";
   u8 "                   (2) Dummy paragraph.";
   u8 "";
   u8 "                      I/A. CÍM";
   u8 "                      A HOLTNAK NYILVÁNÍTÁS";
   u8 "";
   u8 "             2:3. §  Dummy article blah blah.";
   u8 "";
   u8 "                                                           MÁSODIK RÉSZ";
   u8 "                                                       A CSELEKVŐKÉPESSÉG";
   u8 "";
   u8 "                      I/B. CÍM";
   u8 "                      A CSELEKVŐKÉPESSÉG ÁLTALÁNOS SZABÁLYAI";
   u8 "";
   u8 "             2:4. §  Dummy article blah blah.";
   u8 "";
   u8 "                                                         HARMADIK KÖNYV";
   u8 "                                                          A JOGI SZEMÉLY";
   u8 "";
   u8 "                                                             ELSŐ RÉSZ";
   u8 "                                               A JOGI SZEMÉLY ÁLTALÁNOS SZABÁLYAI";
   u8 "";
   u8 "                      I. CÍM";
   u8 "                      ÁLTALÁNOS RENDELKEZÉSEK";
   u8 "";
   u8 "             3:1. §  Dummy article blah blah.";
   u8 "             3:2. §  Dummy article blah blah.";
   u8 "";
   u8 "                      II. CÍM";
   u8 "                      A JOGI SZEMÉLY LÉTESÍTÉSE";
   u8 "";
   u8 "               <BOLD> I. Fejezet";
   u8 "               <BOLD> A létesítés szabadsága";
   u8 "";
   u8 "             3:3. §  Dummy article blah blah.";
   u8 "";
   u8 "               <BOLD> I/A. Fejezet";
   u8 "               <BOLD> A létesítő okirat";
   u8 "";
   u8 "             3:4. §  Dummy article blah blah.";
   u8 "";
   u8 "               <BOLD> II. Fejezet";
   u8 "               <BOLD> A gazdasági társaság szervezete";
   u8 "";
   u8 "               <BOLD> 1. A gazdasági társaság legfőbb szerve";
   u8 "";
   u8 "             3:5. §  Dummy article blah blah.";
   u8 "";
   u8 "               <BOLD> 1/A. Ügyvezetés és képviselet";
   u8 "";
   u8 "             3:6. §  Dummy article blah blah.";
   u8 "";
   u8 "               <BOLD> III. Fejezet";
   u8 "               <BOLD> Másolat a gazdasági társaság szervezetéről";
   u8 "";
   u8 "               <BOLD> 1. Másolat a gazdasági társaság legfőbb szervéről";
   u8 "";
   u8 "             3:7. §  Dummy article blah blah.";
   u8 "";
   u8 "               <BOLD> 2. Másolat az ügyvezetés és képviseletről";
   u8 "";
   u8 "             3:8. §  Dummy article blah blah.";
   u8 ""]
  = Ok (quick_act (u8 "")
  [AStruct (mk_struct KBook (u8 "1") (u8 "BEVEZETŐ RENDELKEZÉSEK") false);
   AArticle (mk_article (u8 "1:1") None [mk_sae KParagraph None (Some (u8 "Dummy article blah blah.")) None None None NO_META]);
   AArticle (mk_article (u8 "1:2") None [mk_sae KParagraph None (Some (u8 "Dummy article blah blah.")) None None None NO_META]);
   AArticle (mk_article (u8 "1:3") None [mk_sae KParagraph None (Some (u8 "Dummy article blah blah.")) None None None NO_META]);
   AArticle (mk_article (u8 "1:4") None [mk_sae KParagraph None (Some (u8 "Dummy article blah blah.")) None None None NO_META]);
   AStruct (mk_struct KBook (u8 "2") (u8 "AZ EMBER MINT JOGALANY") false);
   AStruct (mk_struct KPart (u8 "1") (u8 "A JOGKÉPESSÉG") false);
   AStruct (mk_struct KTitle (u8 "1") (u8 "A JOGKÉPESSÉG KEZDETE ÉS MEGSZŰNÉSE") false);
   AArticle (mk_article (u8 "2:1") None [mk_sae KParagraph None (Some (u8 "Dummy article blah blah.")) None None None NO_META]);
   AArticle (mk_article (u8 "2:2") (Some (u8 "Dummy title")) [mk_sae KParagraph (Some (u8 "1")) (Some (u8 "Dummy paragraph.")) None None None NO_META;
 mk_sae KParagraph (Some (u8 "2")) (Some (u8 "Dummy paragraph.")) None None None NO_META]);
   AStruct (mk_struct KTitle (u8 "1/A") (u8 "A HOLTNAK NYILVÁNÍTÁS") false);
   AArticle (mk_article (u8 "2:3") None [mk_sae KParagraph None (Some (u8 "Dummy article blah blah.")) None None None NO_META]);
   AStruct (mk_struct KPart (u8 "2") (u8 "A CSELEKVŐKÉPESSÉG") false);
   AStruct (mk_struct KTitle (u8 "1/B") (u8 "A CSELEKVŐKÉPESSÉG ÁLTALÁNOS SZABÁLYAI") false);
   AArticle (mk_article (u8 "2:4") None [mk_sae KParagraph None (Some (u8 "Dummy article blah blah.")) None None None NO_META]);
   AStruct (mk_struct KBook (u8 "3") (u8 "A JOGI SZEMÉLY") false);
   AStruct (mk_struct KPart (u8 "1") (u8 "A JOGI SZEMÉLY ÁLTALÁNOS SZABÁLYAI") false);
   AStruct (mk_struct KTitle (u8 "1") (u8 "ÁLTALÁNOS RENDELKEZÉSEK") false);
   AArticle (mk_article (u8 "3:1") None [mk_sae KParagraph None (Some (u8 "Dummy article blah blah.")) None None None NO_META]);
   AArticle (mk_article (u8 "3:2") None [mk_sae KParagraph None (Some (u8 "Dummy article blah blah.")) None None None NO_META]);
   AStruct (mk_struct KTitle (u8 "2") (u8 "A JOGI SZEMÉLY LÉTESÍTÉSE") false);
   AStruct (mk_struct KChapter (u8 "1") (u8 "A létesítés szabadsága") false);
   AArticle (mk_article (u8 "3:3") None [mk_sae KParagraph None (Some (u8 "Dummy article blah blah.")) None None None NO_META]);
   AStruct (mk_struct KChapter (u8 "1/A") (u8 "A létesítő okirat") false);
   AArticle (mk_article (u8 "3:4") None [mk_sae KParagraph None (Some (u8 "Dummy article blah blah.")) None None None NO_META]);
   AStruct (mk_struct KChapter (u8 "2") (u8 "A gazdasági társaság szervezete") false);
   AStruct (mk_struct KSubtitle (u8 "1") (u8 "A gazdasági társaság legfőbb szerve") false);
   AArticle (mk_article (u8 "3:5") None [mk_sae KParagraph None (Some (u8 "Dummy article blah blah.")) None None None NO_META]);
   AStruct (mk_struct KSubtitle (u8 "1/A") (u8 "Ügyvezetés és képviselet") false);
   AArticle (mk_article (u8 "3:6") None [mk_sae KParagraph None (Some (u8 "Dummy article blah blah.")) None None None NO_META]);
   AStruct (mk_struct KChapter (u8 "3") (u8 "Másolat a gazdasági társaság szervezetéről") false);
   AStruct (mk_struct KSubtitle (u8 "1") (u8 "Másolat a gazdasági társaság legfőbb szervéről") false);
   AArticle (mk_article (u8 "3:7") None [mk_sae KParagraph None (Some (u8 "Dummy article blah blah.")) None None None NO_META]);
   AStruct (mk_struct KSubtitle (u8 "2") (u8 "Másolat az ügyvezetés és képviseletről") false);
   AArticle (mk_article (u8 "3:8") None [mk_sae KParagraph None (Some (u8 "Dummy article blah blah.")) None None None NO_META])]).
Proof. vm_compute. reflexivity. Qed.

(* tests/cheap/structure/data/structural_elements_noindent.txt, .json *)
Example fidelity_structural_elements_noindent :
  quick_parse
  [u8 "ELSŐ KÖNYV";
   u8 "BEVEZETŐ RENDELKEZÉSEK";
   u8 "1:1. §  Dummy article blah blah.";
   u8 "1:2. §  Dummy article blah blah.";
   u8 "1:3. §  Dummy article blah blah.";
   u8 "1:4. §  Dummy article blah blah.";
   u8 "MÁSODIK KÖNYV";
   u8 "AZ EMBER MINT JOGALANY";
   u8 "ELSŐ RÉSZ";
   u8 "A JOGKÉPESSÉG";
   u8 "I. CÍM";
   u8 "A JOGKÉPESSÉG KEZDETE ÉS MEGSZŰNÉSE";
   u8 "2:1. §  Dummy article blah blah.";
   u8 "2:2. § [Dummy title]";
   u8 "(1) Dummy paragraph.";
   u8 "(2) Dummy paragraph.";
   u8 "II. CÍM";
   u8 "A HOLTNAK NYILVÁNÍTÁS";
   u8 "2:3. §  Dummy article blah blah.";
   u8 "MÁSODIK RÉSZ";
   u8 "A CSELEKVŐKÉPESSÉG";
   u8 "III. CÍM";
   u8 "A CSELEKVŐKÉPESSÉG";
   u8 "ÁLTALÁNOS SZABÁLYAI";
   u8 "2:4. §  Dummy article blah blah.";
   u8 "HARMADIK KÖNYV";
   u8 "A JOGI SZEMÉLY";
   u8 "ELSŐ RÉSZ";
   u8 "A JOGI SZEMÉLY ÁLTALÁNOS SZABÁLYAI";
   u8 "I. CÍM";
   u8 "ÁLTALÁNOS RENDELKEZÉSEK";
   u8 "3:1. §  Dummy article blah blah.";
   u8 "3:2. §  Dummy article blah blah.";
   u8 "II. CÍM";
   u8 "A JOGI SZEMÉLY LÉTESÍTÉSE";
   u8 "<BOLD> I. Fejezet";
   u8 "<BOLD> A létesítés szabadsága";
   u8 "3:3. §  Dummy article blah blah.";
   u8 "<BOLD> II. Fejezet";
   u8 "<BOLD> A létesítő okirat";
   u8 "3:4. §  Dummy article blah blah.";
   u8 "<BOLD> III. Fejezet";
   u8 "<BOLD> A gazdasági társaság szervezete";
   u8 "<BOLD> 1. A gazdasági társaság legfőbb szerve";
   u8 "3:5. §  Dummy article blah blah.";
   u8 "<BOLD> 2. Ügyvezetés és képviselet";
   u8 "3:6. §  Dummy article blah blah.";
   u8 "<BOLD> IV. Fejezet";
   u8 "<BOLD> Másolat a gazdasági társaság szervezetéről";
   u8 "<BOLD> 1. Másolat a gazdasági";
   u8 "<BOLD> társaság legfőbb szervéről";
   u8 "3:7. §  Dummy article blah blah.";
   u8 "<BOLD> 2. Másolat ay ügyvezetés és képviseletről";
   u8 "3:8. §  Dummy article blah blah.";
   u8 ""]
  = Ok (quick_act (u8 "")
  [AStruct (mk_struct KBook (u8 "1") (u8 "BEVEZETŐ RENDELKEZÉSEK") false);
   AArticle (mk_article (u8 "1:1") None [mk_sae KParagraph None (Some (u8 "Dummy article blah blah.")) None None None NO_META]);
   AArticle (mk_article (u8 "1:2") None [mk_sae KParagraph None (Some (u8 "Dummy article blah blah.")) None None None NO_META]);
   AArticle (mk_article (u8 "1:3") None [mk_sae KParagraph None (Some (u8 "Dummy article blah blah.")) None None None NO_META]);
   AArticle (mk_article (u8 "1:4") None [mk_sae KParagraph None (Some (u8 "Dummy article blah blah.")) None None None NO_META]);
   AStruct (mk_struct KBook (u8 "2") (u8 "AZ EMBER MINT JOGALANY") false);
   AStruct (mk_struct KPart (u8 "1") (u8 "A JOGKÉPESSÉG") false);
   AStruct (mk_struct KTitle (u8 "1") (u8 "A JOGKÉPESSÉG KEZDETE ÉS MEGSZŰNÉSE") false);
   AArticle (mk_article (u8 "2:1") None [mk_sae KParagraph None (Some (u8 "Dummy article blah blah.")) None None None NO_META]);
   AArticle (mk_article (u8 "2:2") (Some (u8 "Dummy title")) [mk_sae KParagraph (Some (u8 "1")) (Some (u8 "Dummy paragraph.")) None None None NO_META;
 mk_sae KParagraph (Some (u8 "2")) (Some (u8 "Dummy paragraph.")) None None None NO_META]);
   AStruct (mk_struct KTitle (u8 "2") (u8 "A HOLTNAK NYILVÁNÍTÁS") false);
   AArticle (mk_article (u8 "2:3") None [mk_sae KParagraph None (Some (u8 "Dummy article blah blah.")) None None None NO_META]);
   AStruct (mk_struct KPart (u8 "2") (u8 "A CSELEKVŐKÉPESSÉG") false);
   AStruct (mk_struct KTitle (u8 "3") (u8 "A CSELEKVŐKÉPESSÉG ÁLTALÁNOS SZABÁLYAI") false);
   AArticle (mk_article (u8 "2:4") None [mk_sae KParagraph None (Some (u8 "Dummy article blah blah.")) None None None NO_META]);
   AStruct (mk_struct KBook (u8 "3") (u8 "A JOGI SZEMÉLY") false);
   AStruct (mk_struct KPart (u8 "1") (u8 "A JOGI SZEMÉLY ÁLTALÁNOS SZABÁLYAI") false);
   AStruct (mk_struct KTitle (u8 "1") (u8 "ÁLTALÁNOS RENDELKEZÉSEK") false);
   AArticle (mk_article (u8 "3:1") None [mk_sae KParagraph None (Some (u8 "Dummy article blah blah.")) None None None NO_META]);
   AArticle (mk_article (u8 "3:2") None [mk_sae KParagraph None (Some (u8 "Dummy article blah blah.")) None None None NO_META]);
   AStruct (mk_struct KTitle (u8 "2") (u8 "A JOGI SZEMÉLY LÉTESÍTÉSE") false);
   AStruct (mk_struct KChapter (u8 "1") (u8 "A létesítés szabadsága") false);
   AArticle (mk_article (u8 "3:3") None [mk_sae KParagraph None (Some (u8 "Dummy article blah blah.")) None None None NO_META]);
   AStruct (mk_struct KChapter (u8 "2") (u8 "A létesítő okirat") false);
   AArticle (mk_article (u8 "3:4") None [mk_sae KParagraph None (Some (u8 "Dummy article blah blah.")) None None None NO_META]);
   AStruct (mk_struct KChapter (u8 "3") (u8 "A gazdasági társaság szervezete") false);
   AStruct (mk_struct KSubtitle (u8 "1") (u8 "A gazdasági társaság legfőbb szerve") false);
   AArticle (mk_article (u8 "3:5") None [mk_sae KParagraph None (Some (u8 "Dummy article blah blah.")) None None None NO_META]);
   AStruct (mk_struct KSubtitle (u8 "2") (u8 "Ügyvezetés és képviselet") false);
   AArticle (mk_article (u8 "3:6") None [mk_sae KParagraph None (Some (u8 "Dummy article blah blah.")) None None None NO_META]);
   AStruct (mk_struct KChapter (u8 "4") (u8 "Másolat a gazdasági társaság szervezetéről") false);
   AStruct (mk_struct KSubtitle (u8 "1") (u8 "Másolat a gazdasági társaság legfőbb szervéről") false);
   AArticle (mk_article (u8 "3:7") None [mk_sae KParagraph None (Some (u8 "Dummy article blah blah.")) None None None NO_META]);
   AStruct (mk_struct KSubtitle (u8 "2") (u8 "Másolat ay ügyvezetés és képviseletről") false);
   AArticle (mk_article (u8 "3:8") None [mk_sae KParagraph None (Some (u8 "Dummy article blah blah.")) None None None NO_META])]).
Proof. vm_compute. reflexivity. Qed.

(* tests/cheap/structure/data/subpoints.txt, .json *)
Example fidelity_subpoints :
  quick_parse
  [u8 "Fake preamble.";
   u8 "";
   u8 "           <BOLD> 1. A törvény hatálya";
   u8 "";
   u8 "         1. § E törvény hatálya kiterjed a gondnokoltak, az előzetes jognyilatkozatot tett személyek és az előzetes";
   u8 "                  jognyilatkozataik adatainak a nyilvántartására (a továbbiakban együtt: nyilvántartások).";
   u8 "";
   u8 "           <BOLD> 2. A gondnokoltak nyilvántartása";
   u8 "";
   u8 "         2. § A gondnokoltak nyilvántartásában szereplő adatok kezelésének célja a gondnokság alá helyezés tényének igazolása";
   u8 "                  a gondnokság alá helyezett személy jogai gyakorlásának elősegítése, illetve harmadik személyek jogainak védelme";
   u8 "                  érdekében.";
   u8 "";
   u8 "         3. § (1) A gondnokoltak nyilvántartása a következő adatokat és a változás időpontjának megjelölésével az adatváltozásokat";
   u8 "                  tartalmazza:";
   u8 "                  a) a gondnokolt";
   u8 "                       aa) családi és utónevét,";
   u8 "                       ab) születési családi és utónevét,";
   u8 "";
   u8 "                       ac) születési helyét és idejét,";
   u8 "                       ad) anyjának születési családi és utónevét,";
   u8 "                       ae) lakcímét,";
   u8 "                  b) a gondnokság alá helyezésről, annak módosításáról, felülvizsgálatáról, megszüntetéséről jogerős határozatot";
   u8 "                       hozó bíróság megnevezését és ügyszámát,";
   u8 "                  c) a gondnokság alá helyezés, annak módosítása, felülvizsgálata, megszüntetése tárgyában hozott határozat";
   u8 "                       jogerőre emelkedésének napját,";
   u8 "                  d) a gondnokság cselekvőképességet korlátozó részleges vagy teljes jellegét,";
   u8 "                  e) a bíróságnak a cselekvőképességet részlegesen korlátozó ítéletében meghatározott ügycsoportot vagy";
   u8 "                       ügycsoportokat,";
   u8 "                  f) a gondnokság alá helyezés kötelező felülvizsgálatának időpontját és";
   u8 "                  g) a választójogból való kizárás tényét, ha a bíróság a gondnokság alá helyezett személyt a választójogból";
   u8 "                       kizárta.";
   u8 "              (2) A gondnokoltak nyilvántartásában fel kell tüntetni a gondnokolt halálának tényét és időpontját.";
   u8 "              (3) Az (1) bekezdés b)–f) pontja szerinti adatokat a gondnokoltak nyilvántartása közhitelesen tartalmazza.";
   u8 ""]
  = Ok (quick_act (u8 "Fake preamble.")
  [AStruct (mk_struct KSubtitle (u8 "1") (u8 "A törvény hatálya") false);
   AArticle (mk_article (u8 "1") None [mk_sae KParagraph None (Some (u8 "E törvény hatálya kiterjed a gondnokoltak, az előzetes jognyilatkozatot tett személyek és az előzetes jognyilatkozataik adatainak a nyilvántartására (a továbbiakban együtt: nyilvántartások).")) None None None NO_META]);
   AStruct (mk_struct KSubtitle (u8 "2") (u8 "A gondnokoltak nyilvántartása") false);
   AArticle (mk_article (u8 "2") None [mk_sae KParagraph None (Some (u8 "A gondnokoltak nyilvántartásában szereplő adatok kezelésének célja a gondnokság alá helyezés tényének igazolása a gondnokság alá helyezett személy jogai gyakorlásának elősegítése, illetve harmadik személyek jogainak védelme érdekében.")) None None None NO_META]);
   AArticle (mk_article (u8 "3") None [mk_sae KParagraph (Some (u8 "1")) None (Some (u8 "A gondnokoltak nyilvántartása a következő adatokat és a változás időpontjának megjelölésével az adatváltozásokat tartalmazza:")) (Some [ChSae (mk_sae KAlphabeticPoint (Some (u8 "a")) None (Some (u8 "a gondnokolt")) (Some [ChSae (mk_sae KAlphabeticSubpoint (Some (u8 "aa")) (Some (u8 "családi és utónevét,")) None None None NO_META);
 ChSae (mk_sae KAlphabeticSubpoint (Some (u8 "ab")) (Some (u8 "születési családi és utónevét,")) None None None NO_META);
 ChSae (mk_sae KAlphabeticSubpoint (Some (u8 "ac")) (Some (u8 "születési helyét és idejét,")) None None None NO_META);
 ChSae (mk_sae KAlphabeticSubpoint (Some (u8 "ad")) (Some (u8 "anyjának születési családi és utónevét,")) None None None NO_META);
 ChSae (mk_sae KAlphabeticSubpoint (Some (u8 "ae")) (Some (u8 "lakcímét,")) None None None NO_META)]) None NO_META);
 ChSae (mk_sae KAlphabeticPoint (Some (u8 "b")) (Some (u8 "a gondnokság alá helyezésről, annak módosításáról, felülvizsgálatáról, megszüntetéséről jogerős határozatot hozó bíróság megnevezését és ügyszámát,")) None None None NO_META);
 ChSae (mk_sae KAlphabeticPoint (Some (u8 "c")) (Some (u8 "a gondnokság alá helyezés, annak módosítása, felülvizsgálata, megszüntetése tárgyában hozott határozat jogerőre emelkedésének napját,")) None None None NO_META);
 ChSae (mk_sae KAlphabeticPoint (Some (u8 "d")) (Some (u8 "a gondnokság cselekvőképességet korlátozó részleges vagy teljes jellegét,")) None None None NO_META);
 ChSae (mk_sae KAlphabeticPoint (Some (u8 "e")) (Some (u8 "a bíróságnak a cselekvőképességet részlegesen korlátozó ítéletében meghatározott ügycsoportot vagy ügycsoportokat,")) None None None NO_META);
 ChSae (mk_sae KAlphabeticPoint (Some (u8 "f")) (Some (u8 "a gondnokság alá helyezés kötelező felülvizsgálatának időpontját és")) None None None NO_META);
 ChSae (mk_sae KAlphabeticPoint (Some (u8 "g")) (Some (u8 "a választójogból való kizárás tényét, ha a bíróság a gondnokság alá helyezett személyt a választójogból kizárta.")) None None None NO_META)]) None NO_META;
 mk_sae KParagraph (Some (u8 "2")) (Some (u8 "A gondnokoltak nyilvántartásában fel kell tüntetni a gondnokolt halálának tényét és időpontját.")) None None None NO_META;
 mk_sae KParagraph (Some (u8 "3")) (Some (u8 "Az (1) bekezdés b)–f) pontja szerinti adatokat a gondnokoltak nyilvántartása közhitelesen tartalmazza.")) None None None NO_META])]).
Proof. vm_compute. reflexivity. Qed.

(* tests/cheap/structure/data/subpoints_depending_on_indent.txt, .json *)
Example fidelity_subpoints_depending_on_indent :
  quick_parse
  [u8 "          1. § (1) A bíróság polgári peres és nemperes eljárás vagy büntetőeljárás lefolytatása céljából a gondnokoltak";
   u8 "                  nyilvántartásában kezelt adatok teljes körét közvetlen adathozzáféréssel (a továbbiakban: közvetlen hozzáférés)";
   u8 "                  jogosult megismerni és kezelni.";
   u8 "               (2) A gondnokoltak nyilvántartásában az érintettre vonatkozóan szereplő alábbi adatokat a cselekvőképesség";
   u8 "                  fennállásának vizsgálata céljából konkrét ügyben közvetlen hozzáféréssel jogosult megismerni és kezelni:";
   u8 "                  a) az ügyészség és a nyomozó hatóság a büntetőeljárás lefolytatása céljából, valamint a büntetés-végrehajtási";
   u8 "                       szervezet és a rendőrség a fogvatartott gondnokának értesítése céljából a 3. § (1) bekezdés a)–f) pontjában";
   u8 "                       szereplő adatokat,";
   u8 "                  b) a rendőrség a fegyverengedély-ügyi és a személy- és vagyonvédelmi, valamint magánnyomozói tevékenység";
   u8 "                       végzésével összefüggő hatósági engedélyezési feladatok ellátása céljából a 3. § (1) bekezdés a)–f) pontjában";
   u8 "                       szereplő adatokat,";
   u8 "                  c) az ügyészség a gondnokság alá helyezés, annak megszüntetése vagy módosítása, a választójogból való";
   u8 "                       kizárás vagy a választójogból való kizárás megszüntetése iránti per megindításával kapcsolatos feladatai";
   u8 "                       ellátása során a 3. § (1) bekezdésében szereplő adatokat,";
   u8 "                  d) a közjegyző polgári nemperes eljárás lefolytatása céljából a 3. § (1) bekezdés a)–e) pontjában szereplő";
   u8 "                       adatokat,";
   u8 "                  e) az önálló bírósági végrehajtó a bírósági végrehajtási cselekmények ellátása során a 3. § (1) bekezdés";
   u8 "                       a)–e) pontjában szereplő adatokat,";
   u8 "                  f) a választójoggal nem rendelkező polgárok nyilvántartását vezető szerv a 3. § (1) bekezdés a), c) és";
   u8 "                       g) pontjában szereplő adatokat,";
   u8 "                  g) a gyámhatóság";
   u8 "                       ga) a gondnokok felügyeletével kapcsolatos feladata ellátása során a 3. § (1) bekezdés a)–e) és";
   u8 "                              g) pontjában szereplő adatokat,";
   u8 "                       gb) a gondnokság alá helyezési per megindítása, a gondnokság felülvizsgálata, a választójogból";
   u8 "                              való kizárás vagy a választójogból való kizárás megszüntetése iránti per megindítása miatt a 3. §";
   u8 "                              (1) bekezdésében szereplő adatokat,";
   u8 "";
   u8 "                  h) az anyakönyvvezető";
   u8 "                       ha) a házasságkötéssel kapcsolatos feladatai ellátása céljából a 3. § (1) bekezdés a)–d) pontjában";
   u8 "                              szereplő adatokat,";
   u8 "                       hb) a családi jogállás rendezésével kapcsolatos feladatai ellátása céljából a 3. § (1) bekezdés";
   u8 "                              a)–e) pontjában szereplő adatokat,";
   u8 "                  i) a járási hivatal szervezeti egységeként működő okmányiroda és a Központi Okmányiroda a közúti közlekedési";
   u8 "                       igazgatási, illetve a személyi okmány ügyintézési eljárásokban a 3. § (1) bekezdés a)–e) pontjában szereplő";
   u8 "                       adatokat.";
   u8 ""]
  = Ok (quick_act (u8 "")
  [AArticle (mk_article (u8 "1") None [mk_sae KParagraph (Some (u8 "1")) (Some (u8 "A bíróság polgári peres és nemperes eljárás vagy büntetőeljárás lefolytatása céljából a gondnokoltak nyilvántartásában kezelt adatok teljes körét közvetlen adathozzáféréssel (a továbbiakban: közvetlen hozzáférés) jogosult megismerni és kezelni.")) None None None NO_META;
 mk_sae KParagraph (Some (u8 "2")) None (Some (u8 "A gondnokoltak nyilvántartásában az érintettre vonatkozóan szereplő alábbi adatokat a cselekvőképesség fennállásának vizsgálata céljából konkrét ügyben közvetlen hozzáféréssel jogosult megismerni és kezelni:")) (Some [ChSae (mk_sae KAlphabeticPoint (Some (u8 "a")) (Some (u8 "az ügyészség és a nyomozó hatóság a büntetőeljárás lefolytatása céljából, valamint a büntetés-végrehajtási szervezet és a rendőrség a fogvatartott gondnokának értesítése céljából a 3. § (1) bekezdés a)–f) pontjában szereplő adatokat,")) None None None NO_META);
 ChSae (mk_sae KAlphabeticPoint (Some (u8 "b")) (Some (u8 "a rendőrség a fegyverengedély-ügyi és a személy- és vagyonvédelmi, valamint magánnyomozói tevékenység végzésével összefüggő hatósági engedélyezési feladatok ellátása céljából a 3. § (1) bekezdés a)–f) pontjában szereplő adatokat,")) None None None NO_META);
 ChSae (mk_sae KAlphabeticPoint (Some (u8 "c")) (Some (u8 "az ügyészség a gondnokság alá helyezés, annak megszüntetése vagy módosítása, a választójogból való kizárás vagy a választójogból való kizárás megszüntetése iránti per megindításával kapcsolatos feladatai ellátása során a 3. § (1) bekezdésében szereplő adatokat,")) None None None NO_META);
 ChSae (mk_sae KAlphabeticPoint (Some (u8 "d")) (Some (u8 "a közjegyző polgári nemperes eljárás lefolytatása céljából a 3. § (1) bekezdés a)–e) pontjában szereplő adatokat,")) None None None NO_META);
 ChSae (mk_sae KAlphabeticPoint (Some (u8 "e")) (Some (u8 "az önálló bírósági végrehajtó a bírósági végrehajtási cselekmények ellátása során a 3. § (1) bekezdés a)–e) pontjában szereplő adatokat,")) None None None NO_META);
 ChSae (mk_sae KAlphabeticPoint (Some (u8 "f")) (Some (u8 "a választójoggal nem rendelkező polgárok nyilvántartását vezető szerv a 3. § (1) bekezdés a), c) és g) pontjában szereplő adatokat,")) None None None NO_META);
 ChSae (mk_sae KAlphabeticPoint (Some (u8 "g")) None (Some (u8 "a gyámhatóság")) (Some [ChSae (mk_sae KAlphabeticSubpoint (Some (u8 "ga")) (Some (u8 "a gondnokok felügyeletével kapcsolatos feladata ellátása során a 3. § (1) bekezdés a)–e) és g) pontjában szereplő adatokat,")) None None None NO_META);
 ChSae (mk_sae KAlphabeticSubpoint (Some (u8 "gb")) (Some (u8 "a gondnokság alá helyezési per megindítása, a gondnokság felülvizsgálata, a választójogból való kizárás vagy a választójogból való kizárás megszüntetése iránti per megindítása miatt a 3. § (1) bekezdésében szereplő adatokat,")) None None None NO_META)]) None NO_META);
 ChSae (mk_sae KAlphabeticPoint (Some (u8 "h")) None (Some (u8 "az anyakönyvvezető")) (Some [ChSae (mk_sae KAlphabeticSubpoint (Some (u8 "ha")) (Some (u8 "a házasságkötéssel kapcsolatos feladatai ellátása céljából a 3. § (1) bekezdés a)–d) pontjában szereplő adatokat,")) None None None NO_META);
 ChSae (mk_sae KAlphabeticSubpoint (Some (u8 "hb")) (Some (u8 "a családi jogállás rendezésével kapcsolatos feladatai ellátása céljából a 3. § (1) bekezdés a)–e) pontjában szereplő adatokat,")) None None None NO_META)]) None NO_META);
 ChSae (mk_sae KAlphabeticPoint (Some (u8 "i")) (Some (u8 "a járási hivatal szervezeti egységeként működő okmányiroda és a Központi Okmányiroda a közúti közlekedési igazgatási, illetve a személyi okmány ügyintézési eljárásokban a 3. § (1) bekezdés a)–e) pontjában szereplő adatokat.")) None None None NO_META)]) None NO_META])]).
Proof. vm_compute. reflexivity. Qed.

(* tests/cheap/structure/data/subpoints_mini.txt, .json *)
Example fidelity_subpoints_mini :
  quick_parse
  [u8 "<BOLD>Alcim 1";
   u8 "1. § Ajj, mehet.";
   u8 "";
   u8 "<BOLD>Alcim 2";
   u8 "2. § A szamozott pontok azert meg mukodnek:";
   u8 "    1. Pont";
   u8 "    2. Pont";
   u8 "";
   u8 "3. § Sot, nem kell felni a";
   u8 "<BOLD> felkover dolgoktol sem.";
   u8 ""]
  = Ok (quick_act (u8 "")
  [AStruct (mk_struct KSubtitle (u8 "") (u8 "Alcim 1") false);
   AArticle (mk_article (u8 "1") None [mk_sae KParagraph None (Some (u8 "Ajj, mehet.")) None None None NO_META]);
   AStruct (mk_struct KSubtitle (u8 "") (u8 "Alcim 2") false);
   AArticle (mk_article (u8 "2") None [mk_sae KParagraph None None (Some (u8 "A szamozott pontok azert meg mukodnek:")) (Some [ChSae (mk_sae KNumericPoint (Some (u8 "1")) (Some (u8 "Pont")) None None None NO_META);
 ChSae (mk_sae KNumericPoint (Some (u8 "2")) (Some (u8 "Pont")) None None None NO_META)]) None NO_META]);
   AArticle (mk_article (u8 "3") None [mk_sae KParagraph None (Some (u8 "Sot, nem kell felni a felkover dolgoktol sem.")) None None None NO_META])]).
Proof. vm_compute. reflexivity. Qed.
