(** Primality of the field characteristic and of the group order of the two curve
    families (values computed by ParamT::init, include/bn.h:216-224), with the chain of
    smaller primes their certificates need. *)
From Coq Require Import ZArith Znumtheory List.
From Verif Require Import Pock.
Import ListNotations.
Local Open Scope Z_scope.

Lemma prime_62383 : prime 62383.
Proof. apply small_prime_ok. vm_compute. reflexivity. Qed.

Lemma prime_249533 : prime 249533.
Proof.
  apply (pocklington 249533 [(62383, 16)]); [exact (Forall_cons _ prime_62383 (Forall_nil _))| |];
    vm_compute; reflexivity.
Qed.

Lemma prime_499067 : prime 499067.
Proof.
  apply (pocklington 499067 [(249533, 4)]); [exact (Forall_cons _ prime_249533 (Forall_nil _))| |];
    vm_compute; reflexivity.
Qed.

Lemma prime_54897371 : prime 54897371.
Proof.
  apply (pocklington 54897371 [(499067, 10220584)]); [exact (Forall_cons _ prime_499067 (Forall_nil _))| |];
    vm_compute; reflexivity.
Qed.

Lemma prime_13043 : prime 13043.
Proof. apply small_prime_ok. vm_compute. reflexivity. Qed.

Lemma prime_6848045079628454069 : prime 6848045079628454069.
Proof.
  apply (pocklington 6848045079628454069 [(54897371, 4400235364529464753); (13043, 300628652347401898)]); [exact (Forall_cons _ prime_54897371 (Forall_cons _ prime_13043 (Forall_nil _)))| |];
    vm_compute; reflexivity.
Qed.

Lemma prime_383 : prime 383.
Proof. apply small_prime_ok. vm_compute. reflexivity. Qed.

Lemma prime_17 : prime 17.
Proof. apply small_prime_ok. vm_compute. reflexivity. Qed.

Lemma prime_260441 : prime 260441.
Proof.
  apply (pocklington 260441 [(383, 201107); (17, 234876)]); [exact (Forall_cons _ prime_383 (Forall_cons _ prime_17 (Forall_nil _)))| |];
    vm_compute; reflexivity.
Qed.

Lemma prime_1562647 : prime 1562647.
Proof.
  apply (pocklington 1562647 [(260441, 64)]); [exact (Forall_cons _ prime_260441 (Forall_nil _))| |];
    vm_compute; reflexivity.
Qed.

Lemma prime_46879411 : prime 46879411.
Proof.
  apply (pocklington 46879411 [(1562647, 42394782)]); [exact (Forall_cons _ prime_1562647 (Forall_nil _))| |];
    vm_compute; reflexivity.
Qed.

Lemma prime_281276467 : prime 281276467.
Proof.
  apply (pocklington 281276467 [(46879411, 64)]); [exact (Forall_cons _ prime_46879411 (Forall_nil _))| |];
    vm_compute; reflexivity.
Qed.

Lemma prime_1687658803 : prime 1687658803.
Proof.
  apply (pocklington 1687658803 [(281276467, 64)]); [exact (Forall_cons _ prime_281276467 (Forall_nil _))| |];
    vm_compute; reflexivity.
Qed.

Lemma prime_128262069029 : prime 128262069029.
Proof.
  apply (pocklington 128262069029 [(1687658803, 2663518126)]); [exact (Forall_cons _ prime_1687658803 (Forall_nil _))| |];
    vm_compute; reflexivity.
Qed.

Lemma prime_22009001472962227 : prime 22009001472962227.
Proof.
  apply (pocklington 22009001472962227 [(128262069029, 10683752564916911)]); [exact (Forall_cons _ prime_128262069029 (Forall_nil _))| |];
    vm_compute; reflexivity.
Qed.

Lemma prime_4657 : prime 4657.
Proof. apply small_prime_ok. vm_compute. reflexivity. Qed.

Lemma prime_419 : prime 419.
Proof. apply small_prime_ok. vm_compute. reflexivity. Qed.

Lemma prime_5994341377 : prime 5994341377.
Proof.
  apply (pocklington 5994341377 [(4657, 3974926621); (419, 1263804741)]); [exact (Forall_cons _ prime_4657 (Forall_cons _ prime_419 (Forall_nil _)))| |];
    vm_compute; reflexivity.
Qed.

Lemma prime_16798108731015832284940804142231733909889187121439069848933715426072753864723 : prime 16798108731015832284940804142231733909889187121439069848933715426072753864723.
Proof.
  apply (pocklington 16798108731015832284940804142231733909889187121439069848933715426072753864723 [(6848045079628454069, 16521842437961505898710990902833880924849150585584906656366025346881141042260); (22009001472962227, 6755588363956041378442974365864851885324174617422342952603465071600157786052); (5994341377, 8888895559417958147411710926872809671745478045445470883112427172389112170353)]); [exact (Forall_cons _ prime_6848045079628454069 (Forall_cons _ prime_22009001472962227 (Forall_cons _ prime_5994341377 (Forall_nil _))))| |];
    vm_compute; reflexivity.
Qed.

Lemma prime_159793 : prime 159793.
Proof. apply small_prime_ok. vm_compute. reflexivity. Qed.

Lemma prime_1069 : prime 1069.
Proof. apply small_prime_ok. vm_compute. reflexivity. Qed.

Lemma prime_14334859726775219 : prime 14334859726775219.
Proof.
  apply (pocklington 14334859726775219 [(159793, 9287525273032970); (1069, 12988821837051969)]); [exact (Forall_cons _ prime_159793 (Forall_cons _ prime_1069 (Forall_nil _)))| |];
    vm_compute; reflexivity.
Qed.

Lemma prime_1254043595354617963043866617659 : prime 1254043595354617963043866617659.
Proof.
  apply (pocklington 1254043595354617963043866617659 [(14334859726775219, 648270687468679223755191115105)]); [exact (Forall_cons _ prime_14334859726775219 (Forall_nil _))| |];
    vm_compute; reflexivity.
Qed.

Lemma prime_103393 : prime 103393.
Proof. apply small_prime_ok. vm_compute. reflexivity. Qed.

Lemma prime_25969 : prime 25969.
Proof. apply small_prime_ok. vm_compute. reflexivity. Qed.

Lemma prime_1176035613847 : prime 1176035613847.
Proof.
  apply (pocklington 1176035613847 [(103393, 675688275372); (25969, 901972567671)]); [exact (Forall_cons _ prime_103393 (Forall_cons _ prime_25969 (Forall_nil _)))| |];
    vm_compute; reflexivity.
Qed.

Lemma prime_101148471075752777 : prime 101148471075752777.
Proof.
  apply (pocklington 101148471075752777 [(1176035613847, 2655626225930652)]); [exact (Forall_cons _ prime_1176035613847 (Forall_nil _))| |];
    vm_compute; reflexivity.
Qed.

Lemma prime_16798108731015832284940804142231733909759579603404752749028378864165570215949 : prime 16798108731015832284940804142231733909759579603404752749028378864165570215949.
Proof.
  apply (pocklington 16798108731015832284940804142231733909759579603404752749028378864165570215949 [(1254043595354617963043866617659, 5991785192639272703656031650832898593729272639365829891762926024204243701912); (101148471075752777, 16352997049317084895759041701333328283831847277990557897891046155387331160930)]); [exact (Forall_cons _ prime_1254043595354617963043866617659 (Forall_cons _ prime_101148471075752777 (Forall_nil _)))| |];
    vm_compute; reflexivity.
Qed.

Lemma prime_3557 : prime 3557.
Proof. apply small_prime_ok. vm_compute. reflexivity. Qed.

Lemma prime_911 : prime 911.
Proof. apply small_prime_ok. vm_compute. reflexivity. Qed.

Lemma prime_1263766531 : prime 1263766531.
Proof.
  apply (pocklington 1263766531 [(3557, 142661317); (911, 663035740)]); [exact (Forall_cons _ prime_3557 (Forall_cons _ prime_911 (Forall_nil _)))| |];
    vm_compute; reflexivity.
Qed.

Lemma prime_35385462869 : prime 35385462869.
Proof.
  apply (pocklington 35385462869 [(1263766531, 268435456)]); [exact (Forall_cons _ prime_1263766531 (Forall_nil _))| |];
    vm_compute; reflexivity.
Qed.

Lemma prime_2480874801745591 : prime 2480874801745591.
Proof.
  apply (pocklington 2480874801745591 [(35385462869, 1241451147209469)]); [exact (Forall_cons _ prime_35385462869 (Forall_nil _))| |];
    vm_compute; reflexivity.
Qed.

Lemma prime_13327 : prime 13327.
Proof. apply small_prime_ok. vm_compute. reflexivity. Qed.

Lemma prime_173171039 : prime 173171039.
Proof.
  apply (pocklington 173171039 [(13327, 16359965)]); [exact (Forall_cons _ prime_13327 (Forall_nil _))| |];
    vm_compute; reflexivity.
Qed.

Lemma prime_13427688667394608761327070753331941386769 : prime 13427688667394608761327070753331941386769.
Proof.
  apply (pocklington 13427688667394608761327070753331941386769 [(2480874801745591, 11079643483354044030555362120445414701546); (173171039, 9785822746442342713677375315050249518427)]); [exact (Forall_cons _ prime_2480874801745591 (Forall_cons _ prime_173171039 (Forall_nil _)))| |];
    vm_compute; reflexivity.
Qed.

Lemma prime_21888242871839275222246405745257275088696311157297823662689037894645226208583 : prime 21888242871839275222246405745257275088696311157297823662689037894645226208583.
Proof.
  apply (pocklington 21888242871839275222246405745257275088696311157297823662689037894645226208583 [(13427688667394608761327070753331941386769, 20520420087326380218354900027015874311863624918437260220194913954166250002289)]); [exact (Forall_cons _ prime_13427688667394608761327070753331941386769 (Forall_nil _))| |];
    vm_compute; reflexivity.
Qed.

Lemma prime_1637 : prime 1637.
Proof. apply small_prime_ok. vm_compute. reflexivity. Qed.

Lemma prime_853 : prime 853.
Proof. apply small_prime_ok. vm_compute. reflexivity. Qed.

Lemma prime_639533339 : prime 639533339.
Proof.
  apply (pocklington 639533339 [(1637, 248876995); (853, 256057581)]); [exact (Forall_cons _ prime_1637 (Forall_cons _ prime_853 (Forall_nil _)))| |];
    vm_compute; reflexivity.
Qed.

Lemma prime_65865678001877903 : prime 65865678001877903.
Proof.
  apply (pocklington 65865678001877903 [(639533339, 8595199928015311)]); [exact (Forall_cons _ prime_639533339 (Forall_nil _))| |];
    vm_compute; reflexivity.
Qed.

Lemma prime_13818364434197438864469338081 : prime 13818364434197438864469338081.
Proof.
  apply (pocklington 13818364434197438864469338081 [(65865678001877903, 7935281130018080704632618576)]); [exact (Forall_cons _ prime_65865678001877903 (Forall_nil _))| |];
    vm_compute; reflexivity.
Qed.

Lemma prime_93001 : prime 93001.
Proof. apply small_prime_ok. vm_compute. reflexivity. Qed.

Lemma prime_661 : prime 661.
Proof. apply small_prime_ok. vm_compute. reflexivity. Qed.

Lemma prime_12048837557 : prime 12048837557.
Proof.
  apply (pocklington 12048837557 [(93001, 4746995210); (661, 8877273464)]); [exact (Forall_cons _ prime_93001 (Forall_cons _ prime_661 (Forall_nil _)))| |];
    vm_compute; reflexivity.
Qed.

Lemma prime_5156902474397 : prime 5156902474397.
Proof.
  apply (pocklington 5156902474397 [(12048837557, 4746712836098)]); [exact (Forall_cons _ prime_12048837557 (Forall_nil _))| |];
    vm_compute; reflexivity.
Qed.

Lemma prime_1670836401704629 : prime 1670836401704629.
Proof.
  apply (pocklington 1670836401704629 [(5156902474397, 11046204280772)]); [exact (Forall_cons _ prime_5156902474397 (Forall_nil _))| |];
    vm_compute; reflexivity.
Qed.

Lemma prime_21888242871839275222246405745257275088548364400416034343698204186575808495617 : prime 21888242871839275222246405745257275088548364400416034343698204186575808495617.
Proof.
  apply (pocklington 21888242871839275222246405745257275088548364400416034343698204186575808495617 [(13818364434197438864469338081, 18810536960267738281623319138564098156538132287104634306360290224932305588168); (1670836401704629, 15379204794002667769298530452756604474647348591674452342013272253614090326003)]); [exact (Forall_cons _ prime_13818364434197438864469338081 (Forall_cons _ prime_1670836401704629 (Forall_nil _)))| |];
    vm_compute; reflexivity.
Qed.
