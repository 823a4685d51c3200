(** Primality of the four moduli hard-coded in
    /repo/src/fields/field_secp256r1.cpp (lines 7, 18) and /repo/src/fields/field_bn254.cpp (lines 7, 17).
    Generated Pocklington certificates; every step is checked by the kernel. *)
From Coq Require Import ZArith Znumtheory List.
From Verif Require Import Pocklington.
Import ListNotations.
Open Scope Z_scope.

Lemma prime_704251 : prime 704251.
Proof. apply (small_prime_spec 704251 841). vm_compute. reflexivity. Qed.

Lemma prime_78283 : prime 78283.
Proof. apply (small_prime_spec 78283 281). vm_compute. reflexivity. Qed.

Lemma prime_46076956964474543 : prime 46076956964474543.
Proof.
  apply (pocklington 46076956964474543 2 [(704251, 1); (78283, 1)]); [vm_compute; reflexivity|].
  intros q e Hin; cbn [In] in Hin.
  destruct Hin as [Heq|Hin]; [injection Heq as <- <-; exact prime_704251|].
  destruct Hin as [Heq|Hin]; [injection Heq as <- <-; exact prime_78283|].
  contradiction.
Qed.

Lemma prime_3677 : prime 3677.
Proof. apply (small_prime_spec 3677 62). vm_compute. reflexivity. Qed.

Lemma prime_197 : prime 197.
Proof. apply (small_prime_spec 197 16). vm_compute. reflexivity. Qed.

Lemma prime_66417393611 : prime 66417393611.
Proof.
  apply (pocklington 66417393611 2 [(3677, 1); (197, 1)]); [vm_compute; reflexivity|].
  intros q e Hin; cbn [In] in Hin.
  destruct Hin as [Heq|Hin]; [injection Heq as <- <-; exact prime_3677|].
  destruct Hin as [Heq|Hin]; [injection Heq as <- <-; exact prime_197|].
  contradiction.
Qed.

Lemma prime_11290956913871 : prime 11290956913871.
Proof.
  apply (pocklington 11290956913871 2 [(66417393611, 1)]); [vm_compute; reflexivity|].
  intros q e Hin; cbn [In] in Hin.
  destruct Hin as [Heq|Hin]; [injection Heq as <- <-; exact prime_66417393611|].
  contradiction.
Qed.

Lemma prime_774023187263532362759620327192479577272145303 : prime 774023187263532362759620327192479577272145303.
Proof.
  apply (pocklington 774023187263532362759620327192479577272145303 2 [(46076956964474543, 1); (11290956913871, 1)]); [vm_compute; reflexivity|].
  intros q e Hin; cbn [In] in Hin.
  destruct Hin as [Heq|Hin]; [injection Heq as <- <-; exact prime_46076956964474543|].
  destruct Hin as [Heq|Hin]; [injection Heq as <- <-; exact prime_11290956913871|].
  contradiction.
Qed.

Lemma prime_835945042244614951780389953367877943453916927241 : prime 835945042244614951780389953367877943453916927241.
Proof.
  apply (pocklington 835945042244614951780389953367877943453916927241 2 [(774023187263532362759620327192479577272145303, 1)]); [vm_compute; reflexivity|].
  intros q e Hin; cbn [In] in Hin.
  destruct Hin as [Heq|Hin]; [injection Heq as <- <-; exact prime_774023187263532362759620327192479577272145303|].
  contradiction.
Qed.

Lemma prime_115792089210356248762697446949407573530086143415290314195533631308867097853951 : prime 115792089210356248762697446949407573530086143415290314195533631308867097853951.
Proof.
  apply (pocklington 115792089210356248762697446949407573530086143415290314195533631308867097853951 2 [(835945042244614951780389953367877943453916927241, 1)]); [vm_compute; reflexivity|].
  intros q e Hin; cbn [In] in Hin.
  destruct Hin as [Heq|Hin]; [injection Heq as <- <-; exact prime_835945042244614951780389953367877943453916927241|].
  contradiction.
Qed.

Lemma prime_155317 : prime 155317.
Proof. apply (small_prime_spec 155317 396). vm_compute. reflexivity. Qed.

Lemma prime_191039911 : prime 191039911.
Proof.
  apply (pocklington 191039911 2 [(155317, 1)]); [vm_compute; reflexivity|].
  intros q e Hin; cbn [In] in Hin.
  destruct Hin as [Heq|Hin]; [injection Heq as <- <-; exact prime_155317|].
  contradiction.
Qed.

Lemma prime_3023 : prime 3023.
Proof. apply (small_prime_spec 3023 56). vm_compute. reflexivity. Qed.

Lemma prime_208150935158385979 : prime 208150935158385979.
Proof.
  apply (pocklington 208150935158385979 2 [(191039911, 1); (3023, 1)]); [vm_compute; reflexivity|].
  intros q e Hin; cbn [In] in Hin.
  destruct Hin as [Heq|Hin]; [injection Heq as <- <-; exact prime_191039911|].
  destruct Hin as [Heq|Hin]; [injection Heq as <- <-; exact prime_3023|].
  contradiction.
Qed.

Lemma prime_2624747550333869278416773953 : prime 2624747550333869278416773953.
Proof.
  apply (pocklington 2624747550333869278416773953 2 [(208150935158385979, 1)]); [vm_compute; reflexivity|].
  intros q e Hin; cbn [In] in Hin.
  destruct Hin as [Heq|Hin]; [injection Heq as <- <-; exact prime_208150935158385979|].
  contradiction.
Qed.

Lemma prime_3969899 : prime 3969899.
Proof. apply (small_prime_spec 3969899 1994). vm_compute. reflexivity. Qed.

Lemma prime_1002328039319 : prime 1002328039319.
Proof.
  apply (pocklington 1002328039319 2 [(3969899, 1)]); [vm_compute; reflexivity|].
  intros q e Hin; cbn [In] in Hin.
  destruct Hin as [Heq|Hin]; [injection Heq as <- <-; exact prime_3969899|].
  contradiction.
Qed.

Lemma prime_115792089210356248762697446949407573529996955224135760342422259061068512044369 : prime 115792089210356248762697446949407573529996955224135760342422259061068512044369.
Proof.
  apply (pocklington 115792089210356248762697446949407573529996955224135760342422259061068512044369 2 [(2624747550333869278416773953, 1); (1002328039319, 1)]); [vm_compute; reflexivity|].
  intros q e Hin; cbn [In] in Hin.
  destruct Hin as [Heq|Hin]; [injection Heq as <- <-; exact prime_2624747550333869278416773953|].
  destruct Hin as [Heq|Hin]; [injection Heq as <- <-; exact prime_1002328039319|].
  contradiction.
Qed.

Lemma prime_159793 : prime 159793.
Proof. apply (small_prime_spec 159793 401). vm_compute. reflexivity. Qed.

Lemma prime_1069 : prime 1069.
Proof. apply (small_prime_spec 1069 34). vm_compute. reflexivity. Qed.

Lemma prime_14334859726775219 : prime 14334859726775219.
Proof.
  apply (pocklington 14334859726775219 2 [(159793, 1); (1069, 1)]); [vm_compute; reflexivity|].
  intros q e Hin; cbn [In] in Hin.
  destruct Hin as [Heq|Hin]; [injection Heq as <- <-; exact prime_159793|].
  destruct Hin as [Heq|Hin]; [injection Heq as <- <-; exact prime_1069|].
  contradiction.
Qed.

Lemma prime_1254043595354617963043866617659 : prime 1254043595354617963043866617659.
Proof.
  apply (pocklington 1254043595354617963043866617659 2 [(14334859726775219, 1)]); [vm_compute; reflexivity|].
  intros q e Hin; cbn [In] in Hin.
  destruct Hin as [Heq|Hin]; [injection Heq as <- <-; exact prime_14334859726775219|].
  contradiction.
Qed.

Lemma prime_103393 : prime 103393.
Proof. apply (small_prime_spec 103393 323). vm_compute. reflexivity. Qed.

Lemma prime_25969 : prime 25969.
Proof. apply (small_prime_spec 25969 163). vm_compute. reflexivity. Qed.

Lemma prime_1176035613847 : prime 1176035613847.
Proof.
  apply (pocklington 1176035613847 2 [(103393, 1); (25969, 1)]); [vm_compute; reflexivity|].
  intros q e Hin; cbn [In] in Hin.
  destruct Hin as [Heq|Hin]; [injection Heq as <- <-; exact prime_103393|].
  destruct Hin as [Heq|Hin]; [injection Heq as <- <-; exact prime_25969|].
  contradiction.
Qed.

Lemma prime_101148471075752777 : prime 101148471075752777.
Proof.
  apply (pocklington 101148471075752777 2 [(1176035613847, 1)]); [vm_compute; reflexivity|].
  intros q e Hin; cbn [In] in Hin.
  destruct Hin as [Heq|Hin]; [injection Heq as <- <-; exact prime_1176035613847|].
  contradiction.
Qed.

Lemma prime_16798108731015832284940804142231733909759579603404752749028378864165570215949 : prime 16798108731015832284940804142231733909759579603404752749028378864165570215949.
Proof.
  apply (pocklington 16798108731015832284940804142231733909759579603404752749028378864165570215949 2 [(1254043595354617963043866617659, 1); (101148471075752777, 1)]); [vm_compute; reflexivity|].
  intros q e Hin; cbn [In] in Hin.
  destruct Hin as [Heq|Hin]; [injection Heq as <- <-; exact prime_1254043595354617963043866617659|].
  destruct Hin as [Heq|Hin]; [injection Heq as <- <-; exact prime_101148471075752777|].
  contradiction.
Qed.

Lemma prime_499067 : prime 499067.
Proof. apply (small_prime_spec 499067 708). vm_compute. reflexivity. Qed.

Lemma prime_54897371 : prime 54897371.
Proof.
  apply (pocklington 54897371 2 [(499067, 1)]); [vm_compute; reflexivity|].
  intros q e Hin; cbn [In] in Hin.
  destruct Hin as [Heq|Hin]; [injection Heq as <- <-; exact prime_499067|].
  contradiction.
Qed.

Lemma prime_13043 : prime 13043.
Proof. apply (small_prime_spec 13043 116). vm_compute. reflexivity. Qed.

Lemma prime_6848045079628454069 : prime 6848045079628454069.
Proof.
  apply (pocklington 6848045079628454069 2 [(54897371, 1); (13043, 1)]); [vm_compute; reflexivity|].
  intros q e Hin; cbn [In] in Hin.
  destruct Hin as [Heq|Hin]; [injection Heq as <- <-; exact prime_54897371|].
  destruct Hin as [Heq|Hin]; [injection Heq as <- <-; exact prime_13043|].
  contradiction.
Qed.

Lemma prime_1562647 : prime 1562647.
Proof. apply (small_prime_spec 1562647 1252). vm_compute. reflexivity. Qed.

Lemma prime_46879411 : prime 46879411.
Proof.
  apply (pocklington 46879411 2 [(1562647, 1)]); [vm_compute; reflexivity|].
  intros q e Hin; cbn [In] in Hin.
  destruct Hin as [Heq|Hin]; [injection Heq as <- <-; exact prime_1562647|].
  contradiction.
Qed.

Lemma prime_281276467 : prime 281276467.
Proof.
  apply (pocklington 281276467 2 [(46879411, 1)]); [vm_compute; reflexivity|].
  intros q e Hin; cbn [In] in Hin.
  destruct Hin as [Heq|Hin]; [injection Heq as <- <-; exact prime_46879411|].
  contradiction.
Qed.

Lemma prime_1687658803 : prime 1687658803.
Proof.
  apply (pocklington 1687658803 2 [(281276467, 1)]); [vm_compute; reflexivity|].
  intros q e Hin; cbn [In] in Hin.
  destruct Hin as [Heq|Hin]; [injection Heq as <- <-; exact prime_281276467|].
  contradiction.
Qed.

Lemma prime_128262069029 : prime 128262069029.
Proof.
  apply (pocklington 128262069029 2 [(1687658803, 1)]); [vm_compute; reflexivity|].
  intros q e Hin; cbn [In] in Hin.
  destruct Hin as [Heq|Hin]; [injection Heq as <- <-; exact prime_1687658803|].
  contradiction.
Qed.

Lemma prime_22009001472962227 : prime 22009001472962227.
Proof.
  apply (pocklington 22009001472962227 2 [(128262069029, 1)]); [vm_compute; reflexivity|].
  intros q e Hin; cbn [In] in Hin.
  destruct Hin as [Heq|Hin]; [injection Heq as <- <-; exact prime_128262069029|].
  contradiction.
Qed.

Lemma prime_4657 : prime 4657.
Proof. apply (small_prime_spec 4657 70). vm_compute. reflexivity. Qed.

Lemma prime_419 : prime 419.
Proof. apply (small_prime_spec 419 22). vm_compute. reflexivity. Qed.

Lemma prime_5994341377 : prime 5994341377.
Proof.
  apply (pocklington 5994341377 2 [(4657, 1); (419, 1)]); [vm_compute; reflexivity|].
  intros q e Hin; cbn [In] in Hin.
  destruct Hin as [Heq|Hin]; [injection Heq as <- <-; exact prime_4657|].
  destruct Hin as [Heq|Hin]; [injection Heq as <- <-; exact prime_419|].
  contradiction.
Qed.

Lemma prime_16798108731015832284940804142231733909889187121439069848933715426072753864723 : prime 16798108731015832284940804142231733909889187121439069848933715426072753864723.
Proof.
  apply (pocklington 16798108731015832284940804142231733909889187121439069848933715426072753864723 2 [(6848045079628454069, 1); (22009001472962227, 1); (5994341377, 1)]); [vm_compute; reflexivity|].
  intros q e Hin; cbn [In] in Hin.
  destruct Hin as [Heq|Hin]; [injection Heq as <- <-; exact prime_6848045079628454069|].
  destruct Hin as [Heq|Hin]; [injection Heq as <- <-; exact prime_22009001472962227|].
  destruct Hin as [Heq|Hin]; [injection Heq as <- <-; exact prime_5994341377|].
  contradiction.
Qed.

Lemma prime_secp256r1_p : prime 0xffffffff00000001000000000000000000000000ffffffffffffffffffffffff.
Proof. exact prime_115792089210356248762697446949407573530086143415290314195533631308867097853951. Qed.

Lemma prime_secp256r1_n : prime 0xffffffff00000000ffffffffffffffffbce6faada7179e84f3b9cac2fc632551.
Proof. exact prime_115792089210356248762697446949407573529996955224135760342422259061068512044369. Qed.

Lemma prime_bn254_n : prime 0x2523648240000001ba344d8000000007ff9f800000000010a10000000000000d.
Proof. exact prime_16798108731015832284940804142231733909759579603404752749028378864165570215949. Qed.

Lemma prime_bn254_p : prime 0x2523648240000001ba344d80000000086121000000000013a700000000000013.
Proof. exact prime_16798108731015832284940804142231733909889187121439069848933715426072753864723. Qed.
