(** Primality of the field prime and of the group order of secp256k1, by Pocklington certificates.
    The lists of quotients spare the divisions: a step of the power computation subtracts a multiple
    of the modulus, whichever it is.  (The certificates were found by a program; nothing about it is
    trusted.) *)

From Coq Require Import ZArith List Lia Znumtheory.
From Verif Require Import EcNum Base Hash Secp.
Import ListNotations.
Local Open Scope Z_scope.

(** ** Trial division *)

Fixpoint tdiv (fuel : nat) (d n : Z) : bool :=
  match fuel with
  | O => false
  | S f => if n <? d * d then true else if n mod d =? 0 then false else tdiv f (d + 1) n
  end.
Lemma tdiv_sound fuel : forall d n, 1 < d -> tdiv fuel d n = true -> forall e, d <= e -> e * e <= n -> ~ (e | n).
Proof.
  induction fuel as [|f IH]; intros d n Hd H e He Hn D; cbn in H; [discriminate|].
  destruct (n <? d * d) eqn:E1; [apply Z.ltb_lt in E1; nia|].
  destruct (n mod d =? 0) eqn:E2; [discriminate|]. apply Z.eqb_neq in E2.
  destruct (Z.eq_dec d e) as [->|X].
  - apply Z.mod_divide in D; [contradiction|lia].
  - apply (IH (d + 1) n ltac:(lia) H e ltac:(lia) Hn D).
Qed.
Lemma trial_prime fuel n : (1 <? n) && tdiv fuel 2 n = true -> prime n.
Proof.
  intros H. apply andb_prop in H. destruct H as [H1 H2]. apply Z.ltb_lt in H1.
  destruct (prime_dec n) as [P|P]; [exact P|exfalso].
  destruct (small_prime_divisor n H1 P) as (p & Pp & Dp & Hle).
  apply (tdiv_sound fuel 2 n ltac:(lia) H2 p); [apply prime_ge_2; exact Pp|exact Hle|exact Dp].
Qed.

(** ** Certificates *)

Fixpoint pw (n a : Z) (e : positive) (ks : list Z) : Z * list Z :=
  match e with
  | xH => (a, ks)
  | xO e' => let (x, r) := pw n a e' ks in
             match r with [] => (x * x, []) | k :: r' => (x * x - k * n, r') end
  | xI e' => let (x, r) := pw n a e' ks in
             match r with [] => (x * x * a, []) | k :: r' => (x * x * a - k * n, r') end
  end.
Lemma cong_minus n x y k : cong n x y -> cong n x (y - k * n).
Proof. intros [j E]. exists (j + k). lia. Qed.
Lemma pw_sound n a ks : forall e, cong n (a ^ Zpos e) (fst (pw n a e ks)).
Proof.
  induction e as [e IH|e IH|].
  - cbn [pw]. destruct (pw n a e ks) as [x r]. cbn [fst] in IH.
    assert (G : cong n (a ^ Zpos e~1) (x * x * a)).
    { replace (Zpos e~1) with (Zpos e + Zpos e + 1) by lia. rewrite !Z.pow_add_r, Z.pow_1_r by lia.
      apply cong_mul; [now apply cong_mul|apply cong_refl]. }
    destruct r; cbn [fst]; [exact G|now apply cong_minus].
  - cbn [pw]. destruct (pw n a e ks) as [x r]. cbn [fst] in IH.
    assert (G : cong n (a ^ Zpos e~0) (x * x)).
    { replace (Zpos e~0) with (Zpos e + Zpos e) by lia. rewrite !Z.pow_add_r by lia. now apply cong_mul. }
    destruct r; cbn [fst]; [exact G|now apply cong_minus].
  - cbn [pw fst]. rewrite Z.pow_1_r. apply cong_refl.
Qed.

(** A prime factor [w_q] of [n - 1], the cofactor, the quotients of the power, an inverse of the power less one. *)
Record wit := mkw { w_q : Z; w_m : Z; w_ks : list Z; w_inv : Z; w_j : Z }.
Definition wit_ok (n a : Z) (w : wit) : bool :=
  (n - 1 =? w_q w * w_m w) &&
  match w_m w with
  | Zpos m => (fst (pw n a m (w_ks w)) - 1) * w_inv w =? 1 + w_j w * n
  | _ => false
  end.
Definition cert_ok (n a : Z) (kf : list Z) (ws : list wit) : bool :=
  (1 <? n) &&
  match n - 1 with Zpos e => fst (pw n a e kf) =? 1 | _ => false end &&
  forallb (wit_ok n a) ws &&
  (n <? zprod (map w_q ws) * zprod (map w_q ws)) &&
  (fix nodup (l : list Z) : bool := match l with [] => true | x :: r => negb (existsb (Z.eqb x) r) && nodup r end) (map w_q ws).

Lemma certified n a kf ws : cert_ok n a kf ws = true -> Forall (fun w => prime (w_q w)) ws -> prime n.
Proof.
  unfold cert_ok. rewrite !Bool.andb_true_iff. intros ((((H1 & H2) & H3) & H4) & H5) Hp.
  apply Z.ltb_lt in H1. apply Z.ltb_lt in H4.
  assert (HF : cong n (a ^ (n - 1)) 1).
  { destruct (n - 1) as [|e|e]; try discriminate. apply Z.eqb_eq in H2. rewrite <- H2. apply pw_sound. }
  apply (pocklington n (map w_q ws) H1).
  - clear - H5. induction (map w_q ws) as [|x l IH]; [constructor|].
    apply Bool.andb_true_iff in H5. destruct H5 as [A B]. constructor; [|now apply IH].
    intros I. apply Bool.negb_true_iff in A. assert (existsb (Z.eqb x) l = true); [|congruence].
    apply existsb_exists. exists x. split; [exact I|apply Z.eqb_refl].
  - apply Forall_map. exact Hp.
  - apply Forall_map. apply Forall_forall. intros w Hw. rewrite forallb_forall in H3. specialize (H3 w Hw).
    unfold wit_ok in H3. apply Bool.andb_true_iff in H3. destruct H3 as [A B]. apply Z.eqb_eq in A.
    destruct (w_m w) as [|m|m] eqn:Em; try discriminate. apply Z.eqb_eq in B.
    exists a, (Zpos m), (fst (pw n a m (w_ks w))). split; [exact A|]. split; [lia|]. split; [exact HF|].
    split; [apply pw_sound|]. apply bezout_rel_prime. apply Bezout_intro with (w_inv w) (- w_j w). lia.
  - exact H4.
Qed.

Lemma prime_53 : prime 53.
Proof. apply (trial_prime 300). vm_cast_no_check (eq_refl true). Qed.

Lemma prime_29 : prime 29.
Proof. apply (trial_prime 300). vm_cast_no_check (eq_refl true). Qed.

Lemma prime_7 : prime 7.
Proof. apply (trial_prime 300). vm_cast_no_check (eq_refl true). Qed.

(** Base 2; factors of n - 1 used: 53, 29, 7. *)
Lemma prime_107590001 : prime 0x669b171.
Proof.
  apply (certified 0x669b171 2
    [0; 0; 0; 0; 0x13f5bac; 0x1809c07; 0x127e2fa; 0x324a142; 0x363938c; 0x5d3202e; 0x57b5422; 0x609fb86; 0x5168610; 0xb902bc; 0x96b949; 0x5d59cf; 0x33825d8; 0x9475791; 0x5171c49; 0x5d0f495; 0x5c656b6; 0x4d8ede; 0x61d1139; 0x3b8ef9; 0x669b16f; 0]
    [mkw 53 0x1ef9b0
       [0; 0; 0; 9; 0xc50fb71; 0x5357451; 0xc6d6fee; 0xb0a750c; 0x32f9f12; 0x41117c; 0x11e394c; 0x5801f; 0x7d4c64b; 0xbe83ef; 0x48a424f; 0x3f4aa56; 0x3afc43c; 0x1f4fb51; 0x498a462; 0x52f7e]
       0x48349cb 0x120cec5;
     mkw 29 0x389c30
       [0; 0; 0; 2; 0x1923b53; 0x3100d08; 0x4127381; 0x220d0b; 0x2fb6c3; 0x434f46e; 0x110616d; 0x49c; 0x978288; 0x5a89841; 0x42a5cc2; 0x652a6db; 0x83ec90d; 0x20e48e6; 0x170a19; 0x3640957; 0x4f7db3b]
       0x5f72de4 0x3c894a3;
     mkw 7 0xea8710
       [0; 0; 0; 4; 0x648ed4d; 0xbb0655e; 0x39ad9b4; 0x9ae25d8; 0x1c31316; 0x1095da4; 0x17f1fe; 0xb5c41; 0x9ff2474; 0x66ed9b3; 0x9ce84a4; 0x1ee2574; 0x108f9fd; 0x2ea04c; 0x7ed736e; 0xa6f7b5; 0x21e9a4; 0xa831f9; 0x21fc3d0]
       0x4b1e7e 0x42d6b1]).
  - vm_cast_no_check (eq_refl true).
  - repeat (apply Forall_cons; [first [exact prime_53 | exact prime_29 | exact prime_7]|]); apply Forall_nil.
Qed.

Lemma prime_20113 : prime 20113.
Proof. apply (trial_prime 300). vm_cast_no_check (eq_refl true). Qed.

(** Base 2; factors of n - 1 used: 20113. *)
Lemma prime_1206781 : prime 0x1269fd.
Proof.
  apply (certified 0x1269fd 2
    [0; 0; 0; 0; 0xde70; 0x75c14; 0xa4f77; 0xd2a9; 0x4d62; 0x53150; 0xb3121; 0x18e280; 0x869; 0x199155; 0x39622; 0x33225; 0x8162c; 0x95cb7; 0x121b31; 0x1269fb]
    [mkw 0x4e91 60
       [0; 0; 0; 889; 0xa8d3d]
       0xad2ef 0xb420]).
  - vm_cast_no_check (eq_refl true).
  - repeat (apply Forall_cons; [first [exact prime_20113]|]); apply Forall_nil.
Qed.

(** Base 2; factors of n - 1 used: 1206781. *)
Lemma prime_7240687 : prime 0x6e7bef.
Proof.
  apply (certified 0x6e7bef 2
    [0; 0; 0; 18; 0x3fa034; 0x201b2c; 0x4001b; 0xb14c9; 0xf17f; 0x4f362b; 0x87c1a; 0x3cfa; 0x9802d7; 0x237f2; 0x2af8b1; 0x3c2ab3; 0x96cc5d; 0x33e71e; 0x3ca4c5; 0x31e58; 0xcb0929; 0]
    [mkw 0x1269fd 6
       [0; 0]
       0x57af91 50]).
  - vm_cast_no_check (eq_refl true).
  - repeat (apply Forall_cons; [first [exact prime_1206781]|]); apply Forall_nil.
Qed.

Lemma prime_239 : prime 239.
Proof. apply (trial_prime 300). vm_cast_no_check (eq_refl true). Qed.

Lemma prime_101 : prime 101.
Proof. apply (trial_prime 300). vm_cast_no_check (eq_refl true). Qed.

(** Base 2; factors of n - 1 used: 239, 101. *)
Lemma prime_96557 : prime 0x1792d.
Proof.
  apply (certified 0x1792d 2
    [0; 0; 0; 86; 0x2448b; 677; 0x9fb6; 0x4c5d; 0x1460d; 0x2fd9; 0x22d01; 0x127e; 0xad9e; 0x178bb; 0x81c9; 0x1792b]
    [mkw 239 404
       [0; 0; 0; 347; 0x61bd; 0x152d3; 0x2051; 0x166b6]
       0x2089 0x9f8;
     mkw 101 956
       [0; 0; 0; 0x15b8; 0xfd7; 0xebb; 661; 0x4c49; 0xc073]
       0xc50d 0x80b3]).
  - vm_cast_no_check (eq_refl true).
  - repeat (apply Forall_cons; [first [exact prime_239 | exact prime_101]|]); apply Forall_nil.
Qed.

Lemma prime_41201 : prime 41201.
Proof. apply (trial_prime 300). vm_cast_no_check (eq_refl true). Qed.

(** Base 2; factors of n - 1 used: 107590001, 7240687, 96557, 41201. *)
Lemma prime_255515944373312847190720520512484175977 : prime 0xc03a94b2d3e64419a05cd8ccbf987069.
Proof.
  apply (certified 0xc03a94b2d3e64419a05cd8ccbf987069 2
    [0; 0; 0; 0; 0; 0; 0x154ed5045f3632181; 0xafdd7bde16ffdccc80bf2209a7ef97d; 0x1bcc2aac5597368bf30451835ad49a50; 0x2aa6491d84fc7517c; 0x4738b86f490f906ce07ff37b84503e; 0x66f034c89c934332002300c3bf6ac8; 0x206b4fb5db980eaecc85df0dc002216; 0xd16a457ac5ee1f678e55f093524df9fb; 0x4ee795cd9e118cf10912fb29a8bda3; 0x16c4412e544d26a4a7ac3a4151b31f5fb; 0x7989ca7daa7f6eeadf2a9f71bb1c2f; 0x357c0f08d3576bd6672d8c2146fc8173; 0x110d971352d0a3b52ebf44524f89d9caa; 0x896ab407584bf3a1b8b18ac904449ae9; 0x54b723f165b6b0796c6f97800d26d5d7; 0x760cff048ac2cddb18dc0645777124f4; 0x91d1902dbb961c24be28429560fe2b73; 0x456e0ef919a7c6cfdca10bab993c1eb; 0x135855cc081859923a47582af64bf0ac; 0x2c0ce359520076761152f82e46aaed32; 0x97b17fcb895f6a8a865d3f0aa7b3b423; 0x4012d77b9d6599a05a6a49477e745c; 0xd08fc2e383771298c8316fdeb182950; 0xd68dcbf78b18d94920af4c73e61c0001; 0xa1f0933d8cdb54dd76f2cf57c1b0badf; 0x76e82798b3fe2b9868395ed081324; 0x16e692dc7bf89e667ca091474eebb9d5; 0x5a734b381b688e2026453da535801965; 0xa2228fafb4eaed6cbb5a47a6c89ece8; 0x9640b54a227753aaf4866d44b9c8f21; 0x1bcb1055b5ae6ec574296937555f69c7; 0x125afd44f3d4e36f6ccd0debb57651c9a; 0xadea79096b52860258c9fe0554431d44; 0x34920c4504f103529558179d04f70f82; 0x85f10ccd955fc8faaed502ff795408c; 0x1f5a34129c6c6fa8315f61681798b5e6; 0x87c037a0db329b47b943d09bb1c5b93e; 0x294cb1aa1c85dbf9b4e3312724a1ca2e; 0x8a28276e1ed46bd49f8e6dd0c3534569; 0x42ce1bdb70b3d45266d8551c71e26c9a; 0x28f0096951ebad4a50a3a98fc18304a9; 0x6a88a2a86bd23b25867f4ca1b0db3969; 0x964364be35d07120c60f15f87a63da; 0x9e01ea4fad05399f3a0b19b61ded8ff; 0x1c5c850af0cb101d37e45eb0663d43; 0x9f8788fd35cb9fe07f1719058cab8d; 0x18b4b19d03d57984da2246ffc3f80e77; 0x9cca3b6542bd545a4067309cd664fd27; 0x9dcaac2b1e34457cbdc944c4064742d; 0xc2c00a728a34ee1bf87d34692e71362; 0xe75348fc713c61385debef03c2861a; 0x75de3f17e9cf6e8ecc9407e75004e4e9; 0x5c228220a25c22260fa6763474d464a; 0x51c2502edca0f4145e14ce46318f3da; 0x4880667515ef7ea5e0244a59a96e98; 0x917c15a6dee936db02aedc98d23b5dd1; 0xe9c8bb8b34d53b5c009ddcc03cc4aa17; 0x77198c9d560f7129dc85fcbc235bf23; 0x75413c74081b331deebacca7cf304967; 0xb7f0f8a028bb1ac5f6f821f20554a43c; 0x492d0e456feb2da372bde05f46cd0534; 0x44eb5bfcbceb7bc1672ee44131e171f5; 0x47f8d706a2c16bfec6d39348bdeb069; 0x19e6f398ff3a4a8bfaf32bef8b916732; 0x183df0144729999a76540e56deda1f66; 0x3821cb92b72c9121cb05989bfe5771ec; 0x19c7c3a71536ee6537a79b2494943bf; 0xa2277213f182b79326e72819dbce5235; 0x7a53991d7804cdfb13f8965f2259ac4; 0x15ed0a72b1cdf56834e3a7d6c9f764ea8; 0x14c192bdf100c7fae61c890aadd4781c; 0xb2e72ed2f101f16ea0e2f96f977e6931; 0xce1600ec236520ed47c9de43f3c251d; 0x12acbe6371cae0e81fd0dec4a7a2cccb; 0xa8013d84b4ef455e2ee6d1460606b4; 0x7107bd76d3103097b1ce9e2d4a5e76eb; 0x208e206b6ef69322c390ef383777fd0a; 0xa1ca68db47d3b94fe17458a4f1c4bcf3; 0x194776ffbb0497f87581bb1dfc44d9fa; 0x1353c3e66faffad239cdd007e06272ca; 0x8daceb492fd44b9cc7c83ff128d2e800; 0xf73668b889d316c268c96ea92aa1e3d5; 0xcad40bc534a99eff108428d8686f66c9; 0x5544edec5abaef1de73c645c6ca2726; 0x1c9db59ec0e6388ba9f5cdc9c1ac54f0; 0x26629fabd036976eed6b73eba101e359; 0x371ccbbc7aeff7479779a599966fefa; 0x249f5b807b766feb8f2093332e72d1c8; 0x64068c16927e508505abbcdceef64e38; 0x54cc0b8ef1b4bd0e619336374709c; 0x7f06d307301a1cf73d91a61b82d1a584; 0x170d51755d693bbbae723787bedbfe013; 0x95fc586870dadcca1212f7aa2eefa235; 0x2dc2076f2d28b6f49fe88213861daf; 0xfd746a8e3b771029ad3ce23485f98cff; 0x29d418dd9a5ed02ddb7c8ce8ae0c4625; 0xf675dd4f4a1b1be2cbb2d2dc3fe2854d; 0x8aeac32f233f75f210d685424737bbf5; 0x5b43ae90dbe8da0e9afb81c9cbbf6dda; 0x5173df544a47d2ba283a52c269ee7f3f; 0xf5f8d3c6658392d291bfed9825f3ca4; 0x117f511d91e6a6c8446b12904dceb3152; 0xb970e5048162501dd13648a20e60d0; 0x3586502526748d795b535f060c0f0762; 0x19c25afdf69d3f36610b172dcb9e8acc; 0x12b1861e5d286b9015f83ed4fba1992d; 0x49d0bd1a9987f9a00428c1f22b3f1973; 0xb27fd4a98fac91976d6f5086ee21253e; 0x1fe4d5cb7c469837503b3ebdd502c4a; 0x205f1538cc99450fb2aced4ae0c9d5b8; 0xb298f99baf1ce5c7dce6ca3cc74af1e; 0x986bf72dad03f69f753ef8b72a5b987f; 0x7769d0d16d41137c17750eafbfc633c9; 0x60de9ea15d9ab2122ec16c02a956cab; 0x62d80189cec576158d9c4bde63d8cfb9; 0x4ca1647023153694393502e76e6267d0; 0x37351195574c858b94d0fcbcdb39ba90; 0xa3374201e1e697254d5d9d1d674b131f; 0x5d5a32f8e67d9ef02d3b004a9554fa41; 0xc03a94b2d3e64419a05cd8ccbf987067; 0]
    [mkw 0x669b171 0x1df9bab4430edf45ff20d8c2e8
       [0; 0; 0; 0; 0; 0; 0xaa76a822f9b190c09e9b91f22730; 0x64f91609ea03992726bea8a4cc356192; 0x17e666d37fb6b46ecbd3a749d4e2ed852; 0x6e19332ebae37771d14b73451908d98b; 0x2093615f55ec3837faaba91f340fc352; 0x10386a5aa70794de3a033ac16b8232897; 0xe28eb7104a2e5c7de6c6e636bac5afd6; 0x508968aebb49a4e893f3b0700bc0ad9b; 0x10a103fa7d84a00af9d57a83a2ec02303; 0x21cd94ac9beea4903a55fd2f1559bd3; 0x74e6011209275194682eedbd8e9bfdd5; 0xa1a27ccde20e9a433f2f0377c22532ce; 0xeb946e558fa194695d9d97cc230cfb21; 0xb613a29471b937ecb6b4fef6073ed9ee; 0x8a715894ffa34b2007d2d03d27682456; 0x3da30244e01c875198ff2149cc1c34f8; 0xe89c9694fd5c93008027119ca951068; 0x2eda1c61fc5fa8c50c568570d042baf; 0x9550a3779777538e5ecd0a59416c580f; 0x6a385d67ea7195a4eb4fc8ec46f11b65; 0x5d9d2ad269d0a454eb2784e68571fbd; 0xfb67f3477b3e44ca7f0a68e696dc099; 0x458fdb09aa9cc1a486d5301b3e1048c; 0xa4b47ddbc2e79c7430e34382df84b243; 0x836862bce6234c357a214b2050e0fec5; 0x18b48161a65bca77c190d3d941f8f4e9; 0x47594ac057993f74fa84e3b6c69d5a5c; 0x35d5158db9f80f1f0b1a155f2cf56867; 0xacb100c1aa620fba13b40a4b620129d; 0xc453365f2d253da614f5ff015344db; 0x16994d7d32cfc9e2490809c604811717; 0x419ab4da08a8ea81b75a2d11d6b4ecf6; 0x760b128a689e5372c957f379ddf0ed24; 0x113cbe3b67381f00b73414ec7396395a; 0xb0635663e66845b41a123b79463e7d68; 0x329465f3b4bdef8385875ba9370c1eff; 0x23d921a69af2639ebba6e5adc7ea7b5b; 0x6dfb5674740dc94ba4c9db6b51eddf7d; 0x18c52e10241511585478322174c9ed3b; 0x31d4833483314759f04fbe87ea58c4d0; 0x81679b4312e97470358a2b977846736a; 0x154fd87fd8e83b35067218484f1ff3919; 0x56f6295b14f565982b6897a6e54b8481; 0x1048b73e2a8d1bce8278adff9e6487bfe; 0x45728fec1a498a3e49c00a58c7128880; 0x792573cae31aa6e265e68dc7ed0585d3; 0x4afd3089d9818e762d1cebc4c04a8fc6; 0x12662fd7bd1bbad2181cc301b7de86bc0; 0xba274f90aae6f7d3870920a579bd6c; 0x3fe065591b06b007eba5a6e3c69579ce; 0x93a205d473f37367abd3faa24bdd2e4; 0x52a481c780f3eeffa84d9ae815bfa2d2; 0x3595cd672f83626e86469f89cf7e857; 0x89dcf4b651b13dd31153f382263eaf1; 0x30cee3df25c27116f81a21065d100676; 0x5b9f5ecc01fac9b75f2ef529d3f6d951; 0x151bf9aa5b18769f9a13663187be2b404; 0x4d0299dcea823543a6d2606e24c4e6b1; 0x8376db738ae2c37f8c435f56ea1d626; 0x16ee31163743d2cfc5d84345539a20655; 0xbc01ef4ed53ec2b2e1a83301d1d6a4ee; 0x79678a395e9185455c39781ab0a7e6e; 0x3cb7de6d073451b35b3ec329b233bc09; 0x1f374a6abea66e162cf132d01f08409; 0x15bd65f3f6d71e823ab75c6be4956b25; 0x22f39d3330a2a8e1dd6100918fa6ad; 0x27bbaa22a522d9aa7d6b257436f43926; 0x48aba693d917a5cc7c399af48d134681; 0xd672add4a7ce777f8d0e38fabc02e7d; 0x327e402ef5eff059151760cdae327a2f; 0x16271ec6fe42af29aec502706bfb601a; 0x6ce6c2a0938f1bfe91c780df18eec64c; 0x4b9873e6edf7047c38669615bbdbdf0a; 0x5c293a056c3ca8890b9d6543551063; 0xeb8e220533ffb92aac6008d0e5e43dc0; 0x23c48898957ab6807e9ddc17e8d1e74; 0x1d80b0551033f86e6b3d3c54a32e8599; 0x6210cf2d501ab40bb0db78946a31d7; 0x33bfa36db222e075f50df58bf643e374; 0x3557e44d25446d901ff6305a4e7bce6c; 0x2f7959b0f891f70975027c14df416d57; 0x81dc74631946a13033644522ba442b24; 0xb90e0b3775c5fd5e843737c13af942bc; 0x49e123362fd661f98650f9cf13fd37b9; 0x5a48165f13d0957328d2aa485fd8c00; 0x6f2538d2fd9abdef12514e5d8865a04b; 0x149b3b648990d441284a1844d2563be; 0x14938fd6803fbafc90c6c74981017388b; 0x41252506c6f38b40f465a8261637ba53; 0xf26f472ff57fb596c18f3a5b1223c9e; 0x105b728ad0fb90208cc0b21f771d3004f; 0x87cb8b871c1cf8ac9a141fe65f655048; 0x19b77a1ad96ddec88b1ef7bdd182b2; 0x163b090c5717648e031324466b98322]
       0xb0db0609faeea74532ac512da850b227 0x39052d42706f6ebb37eeac926c44f4b9;
     mkw 0x6e7bef 0x1bd689d5519e4f1dc57ba264e18
       [0; 0; 0; 0; 0; 0; 0x553b54117cd8c8604f4dc8f9; 0x2409e28bf766c70b49b27b0dcb58615; 0x1124956203d1c17363f54b98246cb6; 0x93fac564d2d911229e2e6b9e391ee698; 0x39819aa98791a6a7328aa3fce666911c; 0x650af252d115c79fe9c2d513f2a8982d; 0xd2661d5ec11757aa706a8e27cbb5caaf; 0x3dd2286ba5ebb520670b5194d1c408ab; 0x5446a478118bf6ad69f14eb753e39a56; 0x5c8e4de97e08d233945b976aa179bc9d; 0xc63a4e6720b15ca96f582dcde8e9472; 0x219b4ff113f3db23e5044f91bdf84fe; 0xb972a738aa4cfd964d021d2dddc94504; 0x1dcef48db09813bda074cb546ee2a; 0x16485b097d333105dff8f290b804430; 0x70caed65a4827939c9fab1c82290e8f7; 0x301915414d81f5a5d99785ee8894e4b1; 0x184d9dff1813063dd27b907b7386d49; 0x781eb285bdd89d2a84bf16d3c792d658; 0x849580bd572202f90a30862b6b42bc16; 0x2ab5501f18d85dce72378995b0a93b8; 0x3c56898f1680a33300a6a3cae5d41bc; 0xa24e2d6cf3c63463ca30e8379d98febf; 0xe057d1faa22b28ec9c5d09f102b8fda2; 0x5341694f36bab8f331ca80261bd27c0; 0x118b4e0d0bcd215dd5a954aa7f671490e; 0x10851619f7032c54010fde50cf18337; 0x60fe3892e0830c543744e5ab60f1cc5b; 0xdf1d916a870b3b195d6cb532b65afb; 0x24085afe7fb7bb0fbaa750656c1ca8a9; 0xde50716898eb4f5e1bbce756643ee6e6; 0x61fdddde52559a59ffb32ab93ce19bdf; 0x3427926677204c3f74508b69d8cd2a08; 0x1612bfc0d27f333840b5080498cb817a8; 0x1592a8e7e6db82c1e4e158b73735d413; 0xa9ec99fdd75a8e243712f80b655abdc; 0xd7d22e5ac8803c1330a66f816387d10a; 0x13d87063572ff81282586e8105df0164; 0x10db0301f6d6ffc4ad7e5c4b3184aa6f; 0x266fe212c81c2627b005b7d7156780b7; 0x1088ea28e5db45305920392edfcc70e9; 0x224f5dcd2500a75c544f414476ee09e9; 0x7c27a2b3fb127f1a1969df75aaf226e; 0x308f61499ea18d28bfa7f22c302decc2; 0x175fc36bd18bfef513ef46e72da54c6a; 0x5c8160b69cb497586c903dc5e0865d5; 0xd4974e7c0e5f63847bc25d4bcd30036; 0x13b1b631a1e0a64bba737a63b0cb55b8; 0x1e50fed0eb02c93b5068b7ac5849320; 0x4b3fd9180be5e019baa52e572a00d207; 0x4b0b50c2e3aee31db01a1b2212db29a9; 0x1208bcbf5ba488e9e0554f5bd9f8994e2; 0x6740c02f17fb97e9664044f26b82b9c7; 0x5f2612d995348af7bb6f47e294220089; 0xa29a13cf12569cb0f704b29dc665bbe1; 0x929248fd58ec84a8dff3ba6cdd10b8ad; 0x2e65695fc79aa0251aacf374fe166eae; 0x587eb0bbcd5b8faf93de415a32eebef8; 0xa38f254ef87c561146088df0e14cf4c4; 0xc5ffd2c8302db0b93a85130c34daea16; 0x119e882a41e2058ca94ddc7dc4133c1a; 0x1d54d5029cc7dbf8ddb77fdaab972a; 0x4f3dcf04a66cca20f478dedf9ea341b; 0x13a8f3edcfe3f91d6b10e00a9c9423eee; 0x3bf8b025f7a45c8529bc1c4a5511; 0x880abaa8c6aede4d95e787b818f85319; 0x4be61ec4efae6a40595fa79eba7baa61; 0x4a37c11e8f4c27370297e59f90e46374; 0x99365b458c07a71b056a63917c3fd5ec; 0x1efbff8353ad01c707a9533ef0f02bf; 0x4c73d588e89466f56a84e81b7b33735a; 0x4149a56e88ce3cd284a7a6c22277b3cd; 0x2b07534b4a123c4e6fcb3ff373ff3922; 0x6f5c5f40410021ce27b2bb4d4de410dc; 0x6f1054dfb699ff5d3e495ca48d3026b2; 0x4e43409b2567e8e0ff9aa1b2b1388c34; 0x1558b7c7393a5222d7bb3cbd547b271aa; 0xa5caf7d155a2f701f2b48fc3b852e030; 0x59b90dba2045c71638025d92ce2d5191; 0x3f83554efb7e429432f8784254ce3d14; 0x10f16de54f415cdb62394972ade9a0c15; 0x1a5feb53715920252bd0804c861e2055; 0xa7057f87d9673063b9a8f6150df8b55; 0x1297126f992f4b86177dc5adb578f4dd7; 0x60ed78f6d9c122cd18c45a4737efbdeb; 0xca67ceb8bd681dafb67fe9aada85cc7; 0x513940e0a59625aa3604339dbdd03bbd; 0x1476d244be10f7ef30f7c7a83b379d74; 0xd808c49d5c7766340daa29469ce973; 0xb7d725dca8507d8054d7d2078c3d7e43; 0x23414e720fa8c4eda76125dbc2ad003b; 0x1f52ba8a894a327197567717eee7a302; 0xc8d1e6a78db93dba5df3fc68daff6f6; 0xc67d3f2f746113a7892a4196c7f911f2; 0x13553d2a06699d56bb685fcb4affebc; 0x1dd6c2d0954f6d50d30c36abdbf6258f; 0x3ee7af559a3efaf5aee524a94b3f375e; 0x17fd38279f84d292bcc2df03888601ad]
       0x84109eda3ae1d0866772b20b1456e44d 0x397ded951cc0694dcdd7b28cf8586646;
     mkw 0x1792d 0x8278a144e8c47b49fc2b2219a308
       [0; 0; 0; 0; 0; 0; 5; 0x148d89d5e7aebe947c836a439bf36081; 0; 0xaa8da; 0x243a0f0754aea0e268006fefa233edfe; 0x44b2ddae29304aaada2ff870e2ce1305; 0x1599870bfdf2bb8191f827a4bdd660c; 0x90c0e757984c9984a7878c838584246; 0x9794d4bbc40906353c992a9ad384692; 0x153f6e4a750a4af3e2264fc35c10ea263; 0xecea180bbf1b90498f7bb6be459aa2; 0x91f5f5b636171820606404203a34cac6; 0x71b3129ae4478777dbff9dbf1f09b10; 0x6d087e692c211a2f6237f4de46cf2d3; 0x64db0d3978d2141ef685979beb3401ba; 0x9e7d1b7b04c4e3a90d1c557585e3199; 0x366d24a887d5ab763b08cc16f6def98c; 0x8fecc269b84f6c786c5bb4f803935fc; 0x762add3fb6a7eb5af15918c0c8480e1; 0x933153ad70a8c78554b1646431770c0b; 0x5afadd36682a38e242b9dd3088b95f73; 0xbdbfc405be385ec54441b117ac6be563; 0xe9326f5aa71d09377f0875ccb8f6241d; 0x49b5be7221c094f1eadfa4f1c2c2b4d1; 0x36e898b941f70ec33579992150c3657; 0x67cc7e5b2332589cdfd84215fd655965; 0x14252c1b69532875b1cef3f64b8f889a; 0x439b62db41333de4297d6b1e51a116a7; 0x63cf8226d42aebf081556769218e213b; 0x171fd6a555e242ecca5bcdf212151d2f1; 0x50cef0c3cb730b8331a19c31cc42f6b; 0x19ed81aff91c19018297966a0a3e6262; 0x7da7ea4eefeceac990a6c16390cd9a; 0xe50f0184ded30078d83b93818de90a73; 0x885251aa1722e98a2de50f30b94312a7; 0x3d915fda8c4591ab326875706fdb5cf9; 0x1268dad2700b972cd2351e431beee14d; 0xb2892d1d68cf37aee03deb824544f72e; 0x39499d11513e11314061c36b4a2daa47; 0x5636a48ce8f45fb06f930b852659c597; 0xc18150ec402b2fe9cd6a584e22d58de; 0x6a7256bdcc2521d010b6a3d6ef40249d; 0x41cca3394fff91b840f846269b2afb13; 0x54a7a527d5854f2111a8f9239e7eeaa9; 0x59504146570c8164c572de3e16230d85; 0xdbc659e0b826e61e97ffc8e3024b3b; 0x4b1eaf8175abf63df6752ab30a58e17; 0x40c0f537cfece06097575eba5d5c211e; 0xdd4adf80bf60b6cf5d469483daf85e2e; 0x5af2f5b46dab52b40d2e2dfef0abc0a9; 0x309351c0f7fd25cbc811ff0c76fc85f4; 0x15311487be89999457a7c87ad9014a; 0x7bbccc8dfc0847fd2afe9978f64f; 0xd2432829daa04a4bebc48d28ee1bebfe; 0xac335e9208ab720254cd0732a3ad05c8; 0x3f8bdcda518ab4e81754151294da6386; 0x3e3d4032d220f74b944badb53806a53f; 0x549566420710c0260e7af4ff2dd3cb8e; 0xe796e3f0f058da90e7aad4b2206e2581; 0x14fcd9f0dafb9aae67471d6816469e86c; 0x6e1e6e7136365d6a7548b9835fad8ad3; 0x7a03555c702d2ea85d97ad52e906ad23; 0x91a1afa454a4a3633a306f0cc5cedf08; 0x1c2b1f0bee218acd5cc7b3051404d84; 0x470e4a8a60b4451711ca19b42cd8786e; 0xc1dfd210f011782b10a715a8acd4fe; 0x346d4d60ea269961f490a402bf07c836; 0x2f0be3143434e8ddd0903f53a90c9c3c; 0x95b0abf639e231a44f67da8fcf04b11; 0x58be350b1aaef8325c724b393aa51afa; 0xae0a3dca8cda9eed6f1129420e832bb7; 0x87c48d569b889da5d01972a904bbc7df; 0x3933814b17217a7d6c5fbbadae9d5f78; 0x89dd5b243235b24d1f0159067a74ec7d; 0xab537d957485b42b51320a1ccdc3362f; 0xb09ec7bea199f76e144b7d6c261cd3fe; 0x579bf8e4ae3d3e6d66d64c2ea4b333e7; 0x9d330b548e682070fdf85b3c32b21bf; 0x383fa7652e9553855c02e612c2709a44; 0xf568d9bfc69548e058c7b1a0811817ba; 0x37d2f4320b3b262d7b87c400872b1455; 0x7c9024ac868057b4830de6adc8fe2dbd; 0x4f77e3354c4d2547b119e405f99255c8; 0x157c297aac8e114f441457cee0c99566; 0x457808954c7b06b90fe7f9dad3ffb027; 0x923b9750f3acd3be06ad1a5cf65ffe8d; 0x1ffc1fc590ac9e90b3ab57e12bae2a; 0x682b62302bf541b60482d5aac4e2c0e2; 0xf62fd4ec4d4bbe24fa68a9bfa29; 0x6b7fa74db5b0d0923fdd026a60a136f2; 0x54a37cec79c441d432cb3dcc188f4bfb; 0xb385e4c2ee778b732e669929b51ff515; 0x529b940478bf7359bd57a431e63fd562; 0x43ffee2cb89a87f35e0dfab5ceb88b2f; 0x2779b08e43260c04c5a8f5d0912c7fc1; 0x126d2d56c79dcf936cfb3c976ab7a8482; 0x1418efc80b2896e7af9d77909555294e; 0x550e2f51ba6f6ea6a8ce0b9cec1b6ed0; 0x21443cbb2f1766212ffdeccadf3a7dc; 0x1a3e85f4370425274907c5f63fb1bf42; 0x11290c4df7dea006100bd75b1437e14d; 0xd5c62288cdab52a72cde6d04feb8bbb8; 0x3ee769d63131cec66d4a434eec4810c; 0x300db9059997283c6d4ed7c00aaa2f9b; 0x41594398792100669364624a35c602bd]
       0x275f06e520cf17b3013a76586486da13 0x74e7283cdf390edd3e6f1d05c6cc498;
     mkw 0xa0f1 0x131c45e23872017d1ec621a4ff6e8
       [0; 0; 0; 0; 0; 0; 0x154ed50; 0x1cb467a49f555273da238b1b9898c200; 0xaa822622f; 0xd2f2c79a86759eb6cccae5d9f57aed1d; 0x39b26eb6010f17a783d06a1340b8e19f; 0x9f7a455b20fd79ea916a72aa388953a; 0x10e792ec78b5130c62cd18cd36b8e6dc; 0x10af9687ddd32a8563c18f0365381bdbb; 0x85fb4b4491bf0d7357f13c25a7d97d; 0x3a77640ff847b617012807852a6676b; 0xbb91c1161fb7500118885c63677371cb; 0x17ae372519bf1ab14cd079d34e566f7ee; 0x18495b24c6da729f6539fd283e3a60d6; 0x7c303e83ca296e2bb46ff901c8ad5a55; 0x117e089d2cdf2c62883e9e0f9749ed42a; 0xc626c571c58b6df72dcacaafb2006a81; 0x168c84db9acb212d9e987b3577f5004cf; 0x2f2ffa7d50c94ad36716e2e07e42630; 0x51f95fd1402003183189ba172f1f6d7c; 0xd00bf6c93d10ea073386798cf704e95; 0x4c9fbda8e05842898a5a017dc07bd441; 0x334f988f0673304add31d12cbea77512; 0x17dc11f9fc95c9f7005c7c9dde6bc472; 0x2b4c5257bc499d613201afcafd4390b0; 0x1fa2fa92f58fd81ba435372283a5d032; 0x49c3c7728e89722120edf65c48214b3e; 0x13aaa65dfc4f63d854c179c7220bdfbbb; 0xbedbe35014cddcab3b2ca94d82f8cf5d; 0x154b7298db3b377739429b65c8ed40b5; 0x5560a87d08ab608df14e92e93d48dc81; 0x20992b33de15905998cc0f963552a584; 0x80dc55ffd730c411e223292f04047935; 0x2e67fb464835c2741f2ef153736578c6; 0x2bafde3056146b2e4d2b13a1694ad6; 0x6d1b92cd6817e5b19a7fbaa285d79d69; 0x3e904924e8e23b957b5fd330b2eef8ce; 0x2874c49af764af9f2b67414d9ebf174a; 0x3ae0200aa7d4db79e61a16f75a75dae1; 0x147d3eabe978e00209579ff81937c186; 0x316539dab02a352b8bb3e5c6c20d50a1; 0x8ad8e8b3a63fac4f2b7a3340b0e1074; 0x1e30b60b8527b2ab790976a948c24d7; 0x67880f5482eff2bb9d387554a20d1b0e; 0x60ab96affde3e12d9e7bf390d802aa06; 0x59ea5d1e46c33ae796ec9babe4ae5b72; 0xed801ff38373fea184903afc32ee41a3; 0xaf0a8984c354f773286b8f25eea27ccd; 0x331d0f109da095ba517d6e1c691946b8; 0xb40c2dce7a572615cb92964976e31d1; 0xa620c1190010f892af93a814972e61ee; 0x8a73f67b95819254dd90659526fe240b; 0x3a4ba6dd091e8549e3df1a305799a373; 0x3753cc8275dba2f46b2a7d9db143815c; 0x6620248bef548942647150b1f454d11e; 0x9ac662dff3b5cef24591203a31cc4db; 0xd80ea587bc556fcf6c5ffb29bf19846; 0x1cfe01070c34646b540fdd5fde2382f1; 0x4aee200628d7fff09e73e2c5acc9546; 0x10a2d7208c4aee64e91f661504491a419; 0x3c7d184133c695d225e56edd4dec66c4; 0x29051de6c95a4e6b48adb8b365fe5b9a; 0x38db64d0808e15d4b865621eb3db4e32; 0x2113659f9b08d641f64bee70f6f9c1e3; 0x7d487654257e5756b95b1b97118e324a; 0x3e4abf76608795780ccffb50c40c16d9; 0x4134c785c8222a798d12c0ab7c116b1d; 0x4b85102ce4e907fe72b0fab97f169d7a; 0x1176c8b48eef6acf4c6852a654289e95d; 0xf0c13ed8ba76707a34c81fa9f5caa84d; 0x14caf74d5b2d1aaee7d936ea20e0e57c; 0xb3ee9abcdefd670ef37d551ff214cd0; 0xac0f5f0b46f48adc04e14ec0c716def4; 0xa76cdf0acaad62a940c9354fc8707634; 0x2f4d7f3b1cd77b854ba7f5a9bd3761ab; 0x4c66204119069024661e1d83dec5c23a; 0x174e1e19faa6973e6fef9836500d1ceb; 0x7965e29b4d97f934616e340827c945b6; 0x3e277a2705ad8e034f6b8a81107e101b; 0x709ffcaae97ebfcc9804bc1b1cb4d1be; 0x1027e0ad20e2ce4561673c78be7b0db; 0x24d58ecb222709207fbb91cd62e032f6; 0xad29e880bb5343deab2b6379ed6dedf4; 0x3f2333ab33b024d1b57e5c28cbed7; 0xfd383f5cbd05fd35a91129513096d6a; 0x620cacaf205fbd185b76166d898818e7; 0xa9a41f4395a546c96ccfeade58e9610b; 0x2e64930d6760361054bc6be6d3b89541; 0x116e23117af1d18caf7dfca54df37c6; 0x60d578d5bcd39d17e8e2ccc9dd4cb75b; 0xc99c367213eb20f9d4595c2432772399; 0xe5aa498ef60926c526ed9a9467ba6505; 0x2ec29ca30bbe1349a58f845841b1d9ca; 0x12429c340f3bd38d3012d098d8275462a; 0x142fd164e8ff73f0d0024ef266d75c2f5; 0x637bd32c485236b65006e58cdc88709b; 0xeee3a89b4e0415a84c11f4cb1573; 0x8b8802bbe8719bc127944ee2365c98; 0x15e91b08f0162872f095cf64a968e669; 0x1d92bc4077c2094ef93340f4f512bda8; 0xa9412368bec395fa6144e052e17c0ab0; 0x14a0ba88471fabd603f98e930abd7274e; 0xada41b1f054e9d6091229853d5d215b9; 0x116ea8a9c0595e985ded8fac11aaad6; 0xa365c413feb9dd91305612ad00d08e80; 0x9c7d9909fae3a016a06ae1b376c46235; 0x7754fb59f5fa184ae0e8859ffc3ab99]
       0x6b4fbe7a24c3a1db9285a5e7f2daf547 0x1909a20ff4ce6b3162aa704001c18db0]).
  - vm_cast_no_check (eq_refl true).
  - repeat (apply Forall_cons; [first [exact prime_107590001 | exact prime_7240687 | exact prime_96557 | exact prime_41201]|]); apply Forall_nil.
Qed.

(** Base 2; factors of n - 1 used: 255515944373312847190720520512484175977. *)
Lemma prime_205115282021455665897114700593932402728804164701536103180137503955397371 : prime 0x1db8260e5e3b460a46a0088fccf6a3a5936d75d89a776d4c0da4f338aafb.
Proof.
  apply (certified 0x1db8260e5e3b460a46a0088fccf6a3a5936d75d89a776d4c0da4f338aafb 2
    [0; 0; 0; 0; 0; 0; 1; 0x599c1cbc768c148d40111f99ed474b26daebb134eeda981b49e6719adf; 0x5f46a4ac1bf27ae01cb41ac16082bf656cb61044e2b5358daaa41a1f9f6; 0x526a73a6c156d60d25f66d82389eec248f4470b4d39293d5577b4083076; 0x1648d4a126565335cc96cd4a6e7b7325584479ecfacf063177f3f45f8329; 0xf71fde428559b271a23a521164b2c9760054dea307f5408a5c7f7810a6a; 0xb446f26dedeb6e6352b217d6c42251852ed99cc8c5235cdac1773c51803; 0x11b621d63cd6b5cabe3a2c3d9a0f06b0a31e687c83b140d09511a00bf977; 0x31dfd831a7546e17c0016642fd0a37c85190c5f30b64460bf725858311; 0x7aab132b8300f711a1f0f1f16e3eedb560ef8ba6624eaf89b97ae7c8cfa; 0x17940f8350a1e399b9c098541cae1e33ac3818e636725a6f336f2af70f; 0x1ec25922eca5120c1753fbe2c7fdd8de1dc972198bc2d9f3eeafe5a6d527; 0x451829ec99015f82eef9f1157697f16be987379f99e54b8de913b1c6d1f; 0x6085ab35566c979d6e3f69ac536db4241cf8e96eb90db89266f3cb60fb; 0xf25a977cbfb514b04b0cb16ae12631a7a7b182447ffbe5b5ae296606a09; 0x8de9512d34d4f13c08c48d8c1685886f1967927c618f6f0db9e8fedd98b; 0x16a5fcb8d2c901f117bd2220859eef479c8a5bbf03c5f8fbf914184f7464; 0x9c41a58bbd8613f4eaa723bfd671ab4a61f045ab73d5f2e9d4e45d85d; 0x2bf7980b5e4e2458eb210c3e1b8b010f22f00318dcbfd8cff712978fefe8; 0x11e85642e60e601b4a6d132f711c1407dbe6e1f36ddacf93a34472fcaf8c; 0x588ed97c0630763dd0c9a9e4577c56674ba41795ffb44b860d482cb6698; 0x36cdd5d0c11fbeefbe5eec4bbd60e809ce5b812cdc1c13445dc9074a023; 0xb59cab1809dbd926d134eaa51843f5db22fee5ced87c23f9d76750ff55c; 0x3012cf2664abb180b47010333b9abf87433e420455cf4b7dee918a43dfa5; 0x9ca9e155c8ffabf48acec9cfc680c56e146239aaac16519abeec8d721cb; 0x9bf75aa09e846e76b7beea28acbea35116061858c30264ca4c94b364eec; 0x18ba88e4a7c61b80325d05edf89163393cff0622ae48fda7838b5e2c5f1c; 0x1e57ace41bb9f5a988ffd2b9069b104fcb76e1448208ca7198280c8d54b6; 0x19d611f7ded10fe8f0a345eca7fc2226ddaef8e3e7217c13b3646f9f421d; 0x19e212efd1dd958973f10f739293a008522b5b20c4a227f5e7f5cd052eb5; 0x14f479b1d7fdc32d6f74cf7386d43ba152f36e288933739cf54e7079f94c; 0x1773508e8e970b28b7096be11feb501023fbc6088b799769212e61d04ee0; 0xdfabe37dba63010575b90aaad5ce0e155b912dba32af44bae037c0f87e; 0x6c2158b1d98094676b8db2006e1856e6a132b59d53bf39324696b82b1; 0x2354c8febb582d833f30bee6298a9371c5f0d24b0d6306578642ad6a6cd6; 0xfebb2b501377b67825e227af21a5f062e70ac6d7e25e4d878a1624799f3; 0x7da077f46ebc79a8f7c572afc014e7fdd584eaaa6f358fb564c68828dd0; 0xc8a4d8dd62d6768897bf6d21dc0d59c06f9f3eb2c1e65d7656355aedb3c; 0xacfadc8e8f4250c75c0903091a65aaee5576d79586525c88469d8667d68; 0x4069d0fe9cfc47e9642f5e05f82816cda61c07da43f5928d0f8635e29a5; 0x13d19b0ec7ef1c1a9edf0b53d22f2707d17c1e035549f2f8bcd37cc911fb; 0xe28cbf5c6f607581dfac7782094b352e5ec3e8de83dc734b1b85c63de; 0x39d702ffa0b4b5f00c67a8734eb5bdacb9168ee4c7973c10091e19fdc; 0x32a24bda82c186cb3fea9a6a7a28e479be8e5109e258e5f8f5260f5a288c; 0xd0cf6355465795e16619291c0be305ff053d736f69a25674bfda1c5de9d; 0x1596732a8aac1db3e459e9f9af68b3a8114ab28d51dec6cf0751a41f036; 0x14ac9cabd349be54dcd35703bbc7629674ca044c7ea6fa3ba7042aa423f9; 0x139467eb90d060e20b37c580d384c0e3dd8f8020067e308b81aaf989a90a; 0x1ba229e7dbf3d31937867d63a0fff18c6ab0ccf46d6a1a62b88e2852eb1e; 0x1a08fe8af52cc845972a57c0940c4e9d76b2fc0e058f6b8d2ceda415eb14; 0x3ab40ae3196a7bcbf021ce4c23aade808b0d67d2900835a12f5f52762ee0; 0x17bfcd8c3304354e8c1578a7ae0427bc5bf968ae89d2219e0cc56228186; 0x1110e276d42447998772357245ab3c2882626c3c025c13ba15007fdd1c33; 0x13fc2b04a7c810d1f0090d28b0f52e95c767064a29e25b94f9bf52dee656; 0x12c6dea9cebd8ac35e1aa0ab770c7df839a4cb6bc6a72056f2a45011824f; 0x36a227b5ac3a10d18f08c6ff4ce11102795155f2e05e84e1860d7fec3519; 0x36a4b7d77d19ed8a06896e57bda2c16fe9e2603549626a4f5188d297ef3; 0x480bf571bc2b1ced9c6da1a6a41c3b605ce0c36995fdc4bfb10a1d0707c; 0x6eb097db8ada4593f6aac7a2bf02a54c514210bbc818ca45fcb6aa3be46; 0x128b0c5079ed86420dfd755780deb2b3b87e7fdcb1f71efba9b51dc8d57; 0xd2df4f433b9f2ba13cebb2c66a3fa109f0b8790234cda3cb923200734a8; 0xc33a7b5187771977b8d832d830fbc82f359a5b2fa82afff4617d305e245; 0x939086f0b3a4456fa8507fb5ec12f096b2627ac3165c9595529ddb4a2b7; 0x1bd9c0c126c97301a5f896311f9ea0c6e5a4cee6f684720da826ee676c65; 0x16db28497de0fc36da92bdd61c25ac82acf22cc5a1bf56df6dff95ffc5a8; 0x47b68f31ac793b0e403515504aeac0f669041566423c1b3d0505a2b41a; 0xde6ecd2816cb0e2dcd9758f8c14c01160f705c3ef775d7618a6902c3d5; 0x1298ab15a4d25d6dbe6c82adfe6f5103e655c4676afbf1053ff7001594f8; 0xaab09293653b9fde5668ff49682e041e4f40b7b7e876ea84831e3b18f51; 0xf85bb766c347ff1fba83d114f4cefb29ac8c8e88356a4c94678a88d0f98; 0x8e5103e602c32fa78988577d019332f2f70bb55f8abacab77fc91aa240a; 0x1d0ebc7cdc9af8fd6064f94e8483bd82a0e05992213c85f6c8c3d23a9a88; 0x1c12bc69914d31dded513844c04dd3c9fffcd1f317b1fddec9e45ac339a8; 0x1caf67acda2503ace5133113b2842c480e1cf0eeba9abaab2a6ff385df1e; 0x8430baf2fb3c865d5a6b712031ac2a7ec62412215de9019fc8aa92f49b1; 0x5271cb67209bfcd566ff799a1f2e5c48662c404e6cdb815cbc59f7aa125; 0xed36a6ce43274e8687b8643304a107ab3b7dd473e0d7ae08c9b41124bb7; 0x17aa000802bbca89c7465efaa3426bf788e4cbc529753a1c149339e9da31; 0xacab29bbf9cb022821606511f7bde9cc3e2d87d528985bc11b9e3f1f4d; 0x1499fc2f2bb3e46ddbeb80978f72354d361119aad30d65bf8eb8c81f05a1; 0x20c87c5545aa69b8ab97ae8747701f0e275633f7dfd8e294b9bd02f4298; 0x3c2ce6dd9b33317d57f543349c0c7644e0930a9902ff5051dfedd313ea3; 0x10aedfa1bdf83731a75dffa5e3a20f061e2ee65f8d9ccb6a137f9f024f63; 0x143e3e0037ea8d678bd73c13e6c21d901550f57f81f89b4103ef0c8cb639; 0x1f1a2ed1bf2710df90d0ec641720aaeb07e2b0d42793551231cf386af6e; 0x1a14bbf70b0b1cbab976d6f90ad37f52e7bd394fb8dc2679231bd8fe68cd; 0xe9500fe0f8940272bcbeaeae0bff5e769103721c68a49f40f45e75e7946; 0x556389eec57f4c15394ab640155d5ba970f59a52c1f38d7828c0b7b3134; 0x17318d38cce3e00b2e3f0443d34953a09f1ef254662132e0dcc97a717ac3; 0x19eaf9af2dc35e50f4d5dad739b9ef3c6622224ac9f6a71c28fdbdfdadce; 0x2b6c969df7e472487de9bff4017c58d2d5e80d77dc809d9878ff5c3038a0; 0xb6cf2e4308803525cbe04ab9c19ad16520a6fc80f624c55f14d627f21; 0x8477d3ea18459f6d96f479e12635aaf218914419f192d69810a21f632ce; 0x34a99bf34c6bf4ef970deecd798e922fa9194dbad087643dd45d0d46c70; 0x3b8d2b00bc0d4f636c6caed04b6796283d413e637eb6763cf78d7bab2bc; 0x312fa87e1fad4d50316d1c43f502fe41902a2eae7d4ad5c7a5c5cdc385a0; 0x140ba968c91f8977f1218a9ec5ed70988fd40d21ef054b034b92a24bba4c; 0x2d7d7d356d9340985550808634a94398059fac8f49a6f61241e1a8073096; 0xf113888729a5a8e4e1101431ff2d66834d31866be021942955b04892509; 0x74c1cfa8bf89f2e026bdc56c258d57634c89c9d9bc05b478444485d4597; 0xed723c27ec5f6aa0958056be96ecc2a29e91094625cae4a8982cd5c0698; 0x181df28b3469baa90e1a8e77f0c704500549679cbb3585a291d5cc20068e; 0x4298c540b3b3f37a71dbe789963d13a4df1ada4d67d8935fd39002409ad; 0x1260e142ed64a1acb09aa91ae1b12cfb2215abc0907a8019e9ad4b370a76; 0x2f232cf5c4dd98b5516ba53ddae04ca3680f70ff7e2deb18b05574370c40; 0x15173d8948fe04285aa596cc36533de7014c088d333741f6d934927bfb36; 0xcfb2f6ef0cbcd176535d36999cefe47be50ca2372a3582b710e57e95e59; 0x62d48c59ce63f2b916dd3a18629f42b8daae1bff69ff7dfc1376b668c13; 0x385ed65b0c6f2144ac4b0a62735dbc30a42c2e64a51f7431a57f1aae7d96; 0x178d7fa04e7d75c3f790c04ccd4b8106b632857699230100c211ced1476; 0x6ffaec3f311ea37b455a0a9a5d44b4548a063649337c2d05fd13d2e6da1; 0x153c7936a6a15d73d7c1349f6f7e1144fb77665078202b2de8f76f461f41; 0x359f6c4e9afc467a1521b5b3941c46f0e3549f83d871304ea3af186b53; 0xc0b75c5241f9b63f8ded465a67e7c957fa82659bd08e3b74e0245f13168; 0xb290177f279dd62d5d147608e2d76edb3ef213c149aaa922930a0eef0cc; 0x4718f212ef5dabef8533a4743b9b6822667b70d106535c3cad5f1f97e0b; 0xc2a8b24757c5f63577a59881b0b24dacc73663715206c0036fdc2e1b19; 0x1779a173a05355899b2b70f2b8b6dc0639763018ec05ae15b7bfcdc29a49; 0x280ebba8f617fc7e2c28fb0f49718a49aac9bf13178179f7a5ebac90a8f1; 0xe7c4506c81fe8aee158d04033a708d2a9b89b15d061e0becb2e372c679f; 0x51d9511ebd741b579147ed4d0db889fe16846f1f52e00fc52cad5c48c42; 0x9d1015aabbdcf5bf64e4038d70895f5acf6b7fab670683389635780758c; 0x26f59bc1f982dca1f56a43bf0477623e17968c8d02ec68ef63355caf9b; 0x10d022ab1e51b071b31b8b79729d65eb630cf8dc6e98529f0f6006871e62; 0x17c4c00bc45e4e4e65767c924a52e4b448521fcb94779be85d2f221156df; 0x13fafca03e2c66ebee4a15603d0e5bc579758d1c6ca21169f8a19578e178; 0xd93e3f949067e5f8ab1034e17ddef19dd7774631f1c50e9ca62867644dd; 0x268433d9991727625b072f9013067a80625f7110814b79b648734dae6e05; 0x118c54d31bd3336434de113943fd8a152e02f74c3dfc5512bfbb67429e0; 0x7e48a73266ab44f90c8f73a2b8de70a0b4c1ed4f954bf72900d16ec190; 0x21b9541c2278ec96245b78060dafc7417a844ca033cdd12356257bd33b; 0x35075985ef1c7f2b465f4b1726099ef7dcff5d1fc2fd3676e2461d9a8a81; 0xa96c730e9c6ccd3831dab786bffa060b5262062289945337aba536ec54c; 0x20557082bda93de15bc3ea3b52ffe67b9ed73fe3112b9d39ae80cb5e710; 0x11fa9e94ef636755368e856632fbd766228535ad2f1e905f7fbc68614810; 0x37cd96b6dd40416320fa8c298d41eac774021d5f0439ac2a444c30866857; 0x16a6f7d6789f9c83cfa01d003b4848d2ccd85965b3da39e09222ef208f11; 0x6b9ab895e725620cc09bada297f263e0f553bca741e387328dfa321af78; 0x173b307fbaf106a0ed9753e1b7fddcf9da8dd850ce1e93c3b5e3ec6897a; 0xc6a9a288fdaf67526a764c0d5a83ee72a295590fdd8928489a3e0c2c390; 0x72efa5c7fef172560a0d0e82010404085cde9c12e03f915ee621e4d8d10; 0x24d4eb022bb8141f985bd17b80aafcefb15cd47e0924c67948f4f1812d99; 0xdb2b661b0df2dd8cec4930333e5ca33c018626490fd8f4a05d9d735a955; 0x2055f1a502af7545e8a3cb8087499717ca981f8829e8245626e84f173fa; 0x8ea0a95cec5964aee4185abc4e74dba2a4719b0431d66a0a72276a634e6; 0x1c36b2a9ef8497c51611e4c9888de1c54abd3d999511ce268eae31935bbf; 0x34dbfa9f4ddcb08b1bbdf0ae69a6b5a753853ca6b1889c1d8c736bd0b064; 0x140caac6066f3a8393b4048f0e52b998ace42e6aaef29f7da1b5d6b618d3; 0x9fd3bc97b18153645cfee5d97da99cb7665306406bb40d712d0e4159c17; 0x20cb59d51da8b3ae6bc88bed7501eb0ea5ba4d52de83b9ad101cd4cb092; 0x319d673c6ea7635b30ddd655d916976052f8cdf18cac00b4947110f8a174; 0x2d5bbf9e7c24f741a95d078f13cfc0a445c37e0ab779562f856fbbc0411; 0x8ec76e60a919f160d4b37fcfb48d8531b9ed90c1df57d483de6bcdccc30; 0x121791f8365ddbb00ab1eef355a859ea2c6498923696e2750b5ac0d56eae; 0x656a5b06273526259903bcf857b4053e0b17ba2dd825e8558f3220d9fb2; 0x10866849f7c7b6db05516fc504019aaf8444c7d65ca3e3fc0f51f96a9656; 0x341b16353ee88e407b8f84e2821d7a19ecd5a6434450e788378c084b8ae; 0x2331965ee508bb2366a281437b950a9e529ff22879e5daaf3818a1e115; 0x1ed2a4da7d8d5d2e227c6fde1b1e845f81f375ed9b974b551aa76d5e919; 0x124694577fe2c19125d9d588869a9f291c8173ae5ecca3086a567897b7e0; 0x99e235ff4a0f2190df03e551048a20beea4a7283ed1475dc6cf6bef1a7e; 0x3f60c9bb210199ac83edeefda305d3691d09e2f95aa7ead9b110b4ce8e5; 0x1b08f3333023f36f475f0abdef07f68fb741e562d16d74da8ff8cc8495; 0x19f1f51c259997b74d4a3bca9c952217bbec32d96b7c3445a8ee5e40f1; 0xb2629d0dad45f98c45b56a2883a63a06190abee2bd352d78d12930c03c6; 0x14a68f097d4e58625ee4200e019d5f48fcbe57bbf2dd11ab8e994e8d88d; 0x8e1489b8d38b765c8b88243fad7d7e596b7705fd4c74395c3e94c69fe28; 0x1017aacbf5f3b8d41c9f9c552e7017009dc4f6f086db31b1902bce3ffa78; 0x63a4f6f5815158c5f439129a145ccf56fbe6fa3152e4ef587c713310a77; 0xc40b98f1e52191ba98fd3f2194cfbbb4a09ba630187554afb17a7447b7c; 0x1b30e3e6f0fd4cb67c1c12e4be749f12c6f95bcbcd480cfafcbfab563bb0; 0x311aa45cfd5c6acc9b79f218fc92fd127551c9e64bd8f195792058167a2; 0x102c5f5baee5eaccb3b4ceeef545f1b47231f50f9b48f60f02ddc5a9813e; 0x1e1f765bb0a073eac1e4403b4195970215ff48c1c65ec8c087a66d61d0be; 0x14e965c7a78336d9df6b9fc9a51bcd7c393c251291e950ede3e81dcb8130; 0xf1fa8bf7f973eaa010b30f14c1fd196f79f20b47e547af92acfa4ebc3b4; 0xb6928f55a9263e57db8f9fd487cc31e802d8f2aa2cf454c948f14f85f74; 0xafb92f2be853fd71ff6b92732a94dffb9f0157e0cb092530bb79a03b841; 0x7231c71c6d9e14c75ff32a7ac695866dfdb30ad8c7d8361c278c5d2361e; 0x2244b06b58f8f822ecd7b3a758691e1276841084b55caa486a433c5bc1a7; 0xd253837e94e77ec0c6133fcfd4a4abeff631b7ce2486bec2e7cc3a6804e; 0x357220bf06a105033d12ddb0e5118b91f5429402f8773a49a4a037053c6; 0xa09c9e00c084826548a030924c664e4f4dd9512b51398c177246dfdef1; 0x164ba9e42a1e00346be04e30c678458a92d6f7646dba0d359659f18a139; 0xcd9e901ccdd2d812f755a654861042f8c0f091d30f1b1bb5963ada61baf; 0x18f24476e4074f2f24bb639ef770f8d4fc2a238e3b3672627f4b9392ce1d; 0x29ee36c812394153df9bcc67201956af9afc60f56cbe6fee436845a466c; 0x64fe0c5cda823c3ec0d7ed969d415e59e5a550e2ba0efe0b98a077e0a93; 0x144335e55707069a283443afa8e0f3fbf0f17824790464e95624528d38e; 0x1faa67992882ca661a0101e9d727e89dca98f6db2087c848eaf7bc212729; 0x1748c3c93070ef68989cb42b08da9680f36bb5d0a3d6b7364ca74f9a2c1; 0x140f3c6d5f7d853214906d9b8d9893deaf915205d1944ccf8b04f9c9e70b; 0x37f7fd0c921756438412dc549b9a392801eed6a7686a4a9491c3521c362c; 0xe81458e7b39f6b90d2c2f8caed7979f0a94a0f0eff7c11652d9158014a2; 0xd3caa4f7eb110f7a73c0c04a1fb5b7d16fe793fe8b81d42b5adfafa6fb1; 0x2563954d09220849987a81f3d03eee83898adc466e0dca6828c4b0bbdbfe; 0xc5ef10077fc89b5ea9101debf4ed8dd1005c03821c231beb2f6fa54b4c2; 0xc5935e276373c95ae4f973c789f300c7e0134b34b9f916c620c202e4c56; 0x1fe07634f555c886f48a22326fa46b3f76abb6a1e0b74dfb3eddfc867403; 0x16dc2089fe176ca063e55480e4f1b6c2bfccb5371c93596ca1d39117c065; 0x186b1f0975bb7873acaf0edb220cd49a9cbde9a11a1cc794146d8b66ff6f; 0xdb6532221e05561744e39663a794cba475bbdaf4187f9ae115432c42c8e; 0x4ff1d69eff02fcaa6d8a5f450929a595055e668dd024b97cbe2e6abab3e; 0x952a5677df37e64edc7d82085ef91e3191313ea239f0836e39cd00ba252; 0x980b7f3360d5916abf9fbafb47c68b04532334240d31942dce0a00a2be1; 0x16b6be519bb32dca0a30880cce3769b04a87aaa0e15ea541aa609e621e; 0x2754e5cdc132d231bbc883c9271f20e4990dafe35dd2bf731529c8859a; 0x7b9fb7971061c406576cef7c925c30989d7f83bcb67b19170cfee1317dd; 0x24c950c3af4e69f3d888c055db125a5cfe7253e0d6462197d9cdcb8c1fe; 0x266c6220b677c5723dec3a37aa72ab731e06e72d5ba9b9d51219997e4b25; 0xe786b5e670a4fd8714772d93b3c1c17d449299513eca0c4f64b98cd9bfb; 0x1cf6b3b802dfcd3a6e64cb07bf8b8079da93095d374cfeeb8afa89094462; 0x8dd1124b69d2a440c943a290a5a0d00e525d0ba0bbccbd9e3852c394b0; 0x271593b8bce5e42c9832889eabf24eff6b5a9cdbff93bcfb4a734ec36c1; 0x1c2becce6b839d4a50f5e3c044631e4577fcc2b73ddb1ef3e5662e37e041; 0x8f391610bb848912211b5965d81bd2fe790373c20614dbd28b959bf63; 0x14295d93abb486ee47760aa43485a16a8967fee153ce6473ae72517737a3; 0x63dc1449dfdfb782ac369b6ef494b3185f832283411993f5f184c26b5dd; 0xbe6cf2f42be0c21398b33860aebd32a074defaf59fd47c5ddcf23c987d; 0x725699f831d734335c06e96d1f3fdaed77faa119d1f7f8312cc31ac24d8; 0xd0cbbe366b0bf6ccb784b452c7fe8d2c8cc06d372da3975a6da0ba79a4b; 0x1fbc54b154a6bdba24030d23ac383aa73c9c6f3cb8e1e7af8aacf0017ea; 0x82c1ae36f1383360399aa69ae2408d681329ddc4254e1b3dbb2c16b20d6; 0x19164633f16d22bfd8d713a4f11feadd4ec48a014cd6acc9669259bcf0df; 0x1f9971527fe52247eef60304a60567fb2af2354c907a69e8d298cc44123b; 0x3868058ce1ff95ec9dd04614c4c8b1396bcdc482e8c28dbd489a73f1c36d; 0x341872c56639bc58e3a14d8662834b66883be2b24f33dffdad0ccb58f5; 0x1788eb2cbd93266fa56bc1f5c6b22c8ff1824fd95e6a09e7be82ec12a18c; 0x5cfb36771b7fe3a6d4ea92175e2253b6fee8edbc37bb8ad46365e156be8; 0x1db8260e5e3b460a46a0088fccf6a3a5936d75d89a776d4c0da4f338aaf9]
    [mkw 0xc03a94b2d3e64419a05cd8ccbf987069 0x27941f57fb3c037181fc07f533ea
       [0; 0; 0; 0; 0; 0; 0; 0x89d2a000000000000000; 0; 0x2274aa0e86b3093dbe7049113dc1cd95d9; 0xa30cccc9d3fc31c3607900a0f01ec7e2d90ff2e653adcf41c60d5d7561; 0x110270a95d48ad55892e209ca2dd8a92931fc8077a5649a85dcbda955e0d; 0xddad72a80a882e6b411754d6fc6ed82c1a6830243556f6a1075bffc906d; 0x6c12fd50a9f239fd3f3786fa8909baae5f51b7a25f44c867a292d4f46a; 0xd11bf29789396b6488d7722940d30dd1c7bc13d6972c495046871246f64; 0xeb9f08a7d9353423b0b633db06e1909fd07dd2ae3397969e140370b7405; 0x1cb8796ad71f41f35ae30745896e10725177d0f54bc31dadd200f298af33; 0x18d91e5fc872d6ecfa83ca9853a4f808a7348fdba123346c5211692c9a6; 0x2a817515db94293bf7832c033f857faaaef4263fe900a6246c0ee318331d; 0x5caff682bbca5176d045d5f9db957bd2a5179e3ffa966edacd1f8083cc; 0x88989de5589f0c6e1c22a6476c850a1a1bd22d5e610d9299d65fb60efd; 0x59deb9e6743fc2a659a767f2610810abc8b6ed025e7097a447a790ab6c2; 0x38ae8f9e1746930d9b69cf7b31579d904e91c12677669c283d3aeb57dae8; 0x18fa7a9c7d7adb1cc77b3dfb1248cc82e8e8ad29c3838ea0d57b8f80d065; 0xcc9a5c1e5faa52928bf72d6bb9e7755a4ced7755f4e3dc026f5b6e564f; 0x75027a31e4d1262b114a2d3298fbe8163686f53271440976417bf95371d; 0x3202338e95612c8ddc8259ed832675c6a0692a348c3ef4dbbc812aa3f66; 0x1cdd621a51cceebf19faaa58d24dbdb1bc51a5025281d1f06162393300bd; 0x26289e364f648fea3b6ea76dba8f1cfd818a072c423031245321c78be2fc; 0x2332335f780e6ef674409416bcc974c6af6e25127f7fe5b826ad24baa7; 0x378f36a56fd7a92580083a909a925d6e31aec3a6e5e4d7ecf72ae2062af9; 0x1c79ed580d7cae3da99a2b5d2d0897ec7f9fec3e09f5fa9b8cf3bedbb181; 0xe21ecebe8863d65763e5d11652cd1668eeb30104938cacafc3613c6a80e; 0x786f452d8b85995cd83659c4dd2b1a431e3d148caa9a92cb2d914a52f9a; 0x1b0121442cb32fe8467b7961a6ba6f51b47d2f19cd37c835210096615fdf; 0x28c3537e6678b83faac62d2b4f4afebbfa688b7a4eb36d972c72b8bebbe9; 0xf1a1f9a75f5fe0af56605af78a7a32c737e7f55ed3f742b2c82a947c84d; 0xa6abe2c2b6aec8bcb04a35195b2b3ef5afde6a064d298f103d8205166b0; 0x2b52540effe0e661621920649accebfd909394cfaee8e814f06aef2764; 0x1713adf9353bf5bd218dd52e6ddfd1338094ab89401fe9070d6c104b178f; 0x96582ac72bb4768558994c594fd83e22162ef3b4753280bd68e1deaa9b0; 0xf2e7647c588d406ff1764b8b56376a2fdb0b71752dcdbb4d128e43e85; 0x1e77ac5022da0a685f7201d9594da74fc58541c8abf2e018841d2c233f; 0x67a2eb48a83943504cd7280241ff8c6ca78e49f707ca3935411d279ff3; 0x20d88debaad7c52225f33908bd1beb31b62856d31c9bc03f95b67e1100d; 0x120928cd6684c3cb61d5d496c72e5e94c94156eb109a45b71519d0ef87b2; 0xfe7ae96fdeebda623bcae3d6a1222a6a8c745c8e3d8e3358f12e4e09e32; 0x14b69108469ed3c1b6f55430e2547573d44918140199ea61be2deb248775; 0x158b9b61d916c1450daa7048f5973b756215ff201f38eaff9c6b55482c30; 0x1e847c77f3507a8e8fa36bca5ce16db9f4286399c22b2483bcc4cad2ec; 0x2526ea64f905d8c11706c9809780e042caead8c573f2cf6881e0f4f0ae; 0x1a32a79729c7d15739a91c5a25c1eafdaa1eda2cec8449a6f1f7082134; 0x1e3cedd8061d43f307c264f3b905af7a6b7a575d45e4e33942e6ec22d0b0; 0xf4b5bf852969fa6c958b94c022c35a697b19ea7d27ffa0c0af9d3a78ca; 0x9c421eca724a7a80d1febf75c7d0d805545aaaa813c3c71733673382d3; 0x25da8126c1a71f0781950f2111df3961552d04f0f32b761082aafcfaeba; 0x22085debbd94c8be4d5a1ec3acc83a756bf876d5049098ba0c9dd8af4b6e; 0x501d33171f750976720d6eb314cd09083a4da7984352cbb27dd01a8aad9; 0xfdca1bc29bac07ad780f817e487b57cc414bef09e7f1bd7489d6b844d89; 0xd3a89416b20d1ac4934b461618f2bac32c9c6bf4f4592c6da60fc0eb57b; 0x9b50070887c2f3e1e29acf2fbfbb6e1469874564fbd46609ae48bcf35c7; 0x32142f47ba25d6bb0595352c2c4334f4a1065adf1588d0829556e96d12; 0xe85282a04fb73be2b1b045fbc74c4ef5635cb404fdd31bdd42f09b89a5f; 0x75c2fd756c67f437fb86320b85eaf4c91fde9dc1c16c14c6b20c3585a10; 0xf4070b4ee8bb5697d87d4bd7049fe249ceb4a8a95521db991a1c30e77a6; 0xdaa76fd238ff38b088d122671a6c526047c08da23f66b444a72e3a37ae5; 0x15ae96fabcf203acc20e7caf62cd1946a9ec80cc036a91300cd0cae7f53d; 0x2a431aad6d20a47660e745ac6cf82629ebb0d5f6636bef4a03960eb504c; 0xe69ec9dc10b41190e1d4dcbe04b6415ad5f2e80cde8c942aeb488a0487f; 0x30e231646988a733f592fc53736b6cca085a1f492d34af2b58e4a4850f2f; 0x2b8ae00d716f7d2918f2b954324d4a81a2936457e28ccbec19366a8cd57c; 0x54ea43c3625206a8dfbb57b6bf2649bbe684b4243f5bfc770b660cabba2; 0x24fad1ea8836d21c158da1a70ab40fe30c5491f32dcf799afdf15a915830; 0x31b69ae2d3cdea2e64057b31419d8e94f1352a038b5da19bd5e813282a7d; 0x151be4f54fada3db6c640fad3403c2f4d3dbaa8a9e8d5cbdc37ae42b16ec; 0xacf18ad1f762d0bc5224b5d1fea20db32c55fc1528770cc1abdc08210cb; 0x1ad4139a8c0c39b0bfec85e2358dacf5710833d136af98fdc799bb4b7026; 0x516e73e8fbb271dcbb3c542363b65d5d4b21fccbe883d7d10b25cfe3987; 0x10104efe001f47255701e77044909705b922929ea14305a5081f95bc6b48; 0x4b5ed0c5f87e8619e300aeffe32236229c3541badc2e938c9f2242102d; 0x201b49ed1edc1b9023fa53830c6c9d10e0d709843001c60573441707535; 0x90b0f14305443b60fa05f285c7abbd4a108031c8166aa5421eaef9c4ded; 0x23184e100696f1c2e2f664b9ec6098e6f642538f997350493e836a979417; 0x1e5a660bf0475d44962d7252d396ebd50d60ddaa2619f8aed392b2deb9ee; 0x2f4e461636b09e4b4c8149f7ce5dfb04c9bf9566e89f4af83e39a8d74786; 0x2101faedc63486f4d132bcf38805fb5ff11cc17de7db5d39bf3461fa7ddf; 0x3883089bd0d2e9bb0e2e472205448b4cfeb626c29b62099e7ade752dd2b; 0x1f119bcfa625b73e4495ff98848041b80ceeba179849cbd5d4b53456731d; 0x7b8d356e555c51ae57c431076e6a9116f9e2dea485e67e2ab21c43aa736; 0xf43157204f16105ddfbf047dcf02cc430c433ed43e5d840b5974f057343; 0x147ac6f807d4115f538f9b980b7709eb6b73b00996fea8f4af5421a7ff4a; 0x13bb28401644093dbbee2212d0251aeb7288220277b2993558d508e17e45; 0xb5ae2df60bb17f417d37ae2eee0982bc4096254217afe67f90aaa8eeac; 0x343b887484af52d49c812b6882eb68752f363ba64e6679e488ba690033e; 0x1b7568bf7db0f274dac7f3deebc6b177e9df7ec259f2dff8340ecfe83114; 0x31c2a1a2bef1eed1e37566362aa3308c1ed55be65427d2d2cc1fcc3c737; 0x723bf20fe072b37d7f1da666848a1da164928fa20ce8bea68e0bc571ee1; 0xce5b1984c6ed934a31400c08e0d3dd007940bb019ccb646e932c2d016a2; 0x2d0e1651e8ad8be09844c1d5dec1a47672d1f51c98200b15c80c9c7442; 0x4d038a8ea653ec33c877572f31545c6f731b1cd2010e4b5a6faf9b1fbc2; 0x1505ce24effde1864308731fedc7ac47d0e67f8593a4a28f448d24faaaef; 0x9962c847e684d5632a920680ac59ab3297a19986e87c0d553d7cd6cfa30; 0x3b2e3ca37ddbcb82fa91acae513873c1cdde3207be267e7962a0c4918fe7; 0x13919aac4764acf14287c60762a23cf21c97ea25e1a988c65fab2af8ea; 0xd293642324d1abfbb9c19264c07f7f597f67627d119e5b959c61dad91a5; 0x8650c04e504b331255b8cf4d46bd99e8ca016a26524edc150ec45ee3227; 0xab49300873a0e3c0c9aeb9c2cc715cecb278e2c0e2cfe88cee8a3c6d56; 0x1c3f5c1018f98f61f21e4b275461606eee309ba3a9e8894ea044947669b5; 0x1d4a9c66ed1bfc3cf4fa372a7e1306712ff318eb2840053e12cd86596f15]
       0xbce1bae6645f252963752a74333138f457aaf3fbc9c842fbcd0b8d48aeb 0x30df27ef44f1b0d7c0e67e1b615d72f105e1fae692a5c772c6dd0acacbe]).
  - vm_cast_no_check (eq_refl true).
  - repeat (apply Forall_cons; [first [exact prime_255515944373312847190720520512484175977]|]); apply Forall_nil.
Qed.

(** Base 2; factors of n - 1 used: 205115282021455665897114700593932402728804164701536103180137503955397371. *)
Lemma prime_115792089237316195423570985008687907853269984665640564039457584007908834671663 : prime 0xfffffffffffffffffffffffffffffffffffffffffffffffffffffffefffffc2f.
Proof.
  apply (certified 0xfffffffffffffffffffffffffffffffffffffffffffffffffffffffefffffc2f 2
    [0; 0; 0; 0; 0; 0; 0; 0x80000000000000000000000000000000000000000000000000000000800001e8; 0x800000000000000000000000000000000000000000000001000007a1800e8eb8; 0x8000000000000000000000000000000100000f44005763c6de57da97a3518359; 0x1d21450a33a5af3fdc714b389ced5fbc68796bc42286ce6c1aaa822; 0x7b136c96d6e3e999cc226ef7e22905d9096e4192eb87357d9f93205c723078a; 0x49b914e15dafcaf566554b9736cfdb116fd479ca50b23920ded4038e01c1cb4; 0x5070d6144e3d5f10f75ed7bd547694196188e5aaab2c0820cfb2c8fafac7196; 0xa0bdd432563f0876ab49f0e96a2dd568b00cde90d8f62f59d23b20e39e47d72; 0x544c095c99a021ad3d35f691cbdfcf59d0debd7fd2fe69deb2060b6f67d63f; 0x2f1526fc207bab9eccc79745f962b04b9582bc5e2e6014f2cb492dcbd5253786; 0x13a96720095de6319696df2de161b915d53d104b260248899480746d9263428c6; 0x1196fe4b661819b7a49b8f2c6e9d93c5917b1a39058cbff51d575c6e37a6ef4; 0x17871369fa784b6299066ba5966947caf8f2bd43ef0067717bbdd43cecffcf6; 0x1b2fdfe9f687a1baa54d44dfa57c9eb653d8fbb74823f95550897ab92cb5051c8; 0x70182baad31029a8d6d87f9347353fced657816eacb033c75b364215d9762ae8; 0x3b92ec674bdec02506ed312bbf0cd0138d268128a4af278b636ad4fa36a748e7; 0x3b0e5bb188cc0243d6e8e43fb12e1f4319c6078d343b6097cc7be9d6b3cd8e9f; 0x7c28bd8d49ebd04036850f3262e47917f74cbc3242f3a07c014ffa89c26ddb1e; 0x1eab725a577767a407b5a6e0fe431c24d8191b9d27eada0abe677d69d54e41706; 0x58c3d0acad3b62ea8a6d9792dacbea39f3a13bce7b18f430d8adbd2544a442ce; 0x1b07d159908d9c099d8bcd1fec9fce1ef36c199749db65e103798a682f0663b9e; 0x232ee1a1b26071ee48d7ee5c206966cf94afec470ddeb25f07ffc11adc92; 0x363edf26ea1a676ef5343dcb051e154a02bd38b6f89899d12b575ed8b5265bf0; 0x11b5a7c2fb46b7d5a6ed4a6e67ee712dffce6b2c6a87f32a65cf3316078e680f7; 0x39183dbebe5310aa5434a36881a35443d299d2aba7f8f1b237cbaae239e87966; 0xbb5ede20d12324e101201316113c9d79c46a73e9e289e1a5bcdc5de096340540; 0x1c316cbef5b9a07a7038a7da77ec781ed07028da93ee7b53c02915ce0dcc8e29; 0xd0db4abb106f6d16be37422267f8319f4574f3f227875a4befccc8f1b2b7673; 0x1b7963420e4c114853daa5c7dc654de1e3b9bd411c9f6ff8edfb2d8e2c7862282; 0x131c7df2034c705bfcfd96fcdde7c34e7f1ed0f89f9ef6547ce231770a3bddd87; 0x3569443c9f2866730bfc2cf9248877dd904cc4a20fd7ba9622069b67805aa98e; 0x11983cf0cfe3511098710a648f70304a7c4a74536bb14cc422e952bf8ed87f184; 0xc442195a8504cc5f9dc9255bc2bcacaa2a17210514eb68230efe037b4ee1605e; 0x50160b0c447ea1ec2b290eb2623e56bf763e38c9192243c841ab1a30f35aad02; 0x19ce67ab58b65d42e7e6a575660bbda1d57c670be96e1e980ead4ec73d9b82476; 0x12938edcc6128bd3d2e426f778b51574f70975bcbe535f44b4cf73a99280250dd; 0x1cd86f13074e805952e25b1f875559cf640122157bac312c2b2b3da3e44f3b47c; 0x1172462e01bf5d9d309478e4e287ee31dd1454e6b2432e84ea2b9478ab601f07b; 0x298b071ab4ab413b43bfea06b4426e0b4ad0bd454c89d87f7964717f83ca5d36; 0x9420e8769df4f5500653ffdfebe10ca3aa0f0763e41946006a2f10f3abf7b842; 0x1c65acc589ea5a1e33efad87404f1f3ebdb0c66c26a1aebc6c38b2f76ce442c2; 0xebef73c9cd9f8b7b8e248e80e81214855ba06cc5446bade8c0af74101ef5e43e; 0x15edba1289a6b6af8c79ff4081bb148870c841321ce6b873e40be93f1011d785d; 0x10d3cfe5ba40048df115ecd4996e78396f1dee5f742c7f7caa19e31ebb9f9c7; 0xc542dcad0b6eedff968f55458a55e5b1da8119e689a2102a1c028b835d0e94d3; 0x2c055fbfca35e8c0b782d174c3fcc6072694adcc84f67bd5013acb1bdc7206c; 0xe1ea0f2c0f1f9a7a8c1363b3ccbfe127c07d7fd6395f734ce88adda35617b496; 0x97a1c77faca54e4f24d88c5de24906353c213a5cc5892a80ceb725bdbe5a3960; 0x19692518844ee5bbd0be53edb1494784c3b1eaf7cdda562fc5d3dbe6c6e72b751; 0x152f712d730b45cd81b2eeec047b045e22046eec659f241274fc9deb089dcf3ce; 0xe7b35ed9fb446b2784dcfb385a88c75b2bc5ba69080906403bded75967c1c7b; 0x12510c1b01a8c83f850a3b6af2f9319cfe1a6d5cf148a163e70f878c4e59dbae9; 0x197ab76d8e23cbca5c84a8faf289a32bfc6d29ce15840e28003c7025d9b12df7; 0x10c80c7b460714ad59ec747af8e1e42bc5418d972579994ba04048045f0b914be; 0x388be8e76f52efc2e5b3ec3b039fb4e90f6173e99a97ce67c9746f97105f3d18; 0x184d27c2d4ced0287c1b99a5aecdccdd26de7f5417800edf842407d22a7d31827; 0xd14611ff8bd2a57fe4c0ab7c41ed95e1eb61a0e087cbfba46dee82572d7a285; 0x11e61dd521411b1cce744acd762929242ed1fe9019fb1736dc24cb123c99d7f9f; 0xafff958517d0730d62e0f4257c81a70b0494d36d51e71597deed2f0cba5d8e00; 0x1949e9a2da053ed8ba37c37f400e2bdef337a46a189706042621b476f2686f716; 0x299570b130d66440459223debdfb3e5fd06fd4417f398c486ebf06129be99eda; 0xa2e87bb93499c1ff7ef066eb717b94839a1abd705306483032e468db66e679f0; 0xf746c844ae4210ceff62e76c48f56c4a79b569a94c6e6f1e4b531a2fd618044e; 0x1a8a6a3e208c0e001700e8cc539ee2974ba787287d08dea5528f813691b4ea17c; 0x7c4c18c60d8132577d1c7e0513698c5e11d7a4324b095f82e130a4871d44ee05; 0x1a1bb572150b333201081d9dc03d77fabf15b6067047411289489a1d7b2e61150; 0x9ba5e33781dec2f1928b4d1f3351553fd9222b901d45fad0eb814def19e9c25a; 0x51eaa5edd928d49a91489e9314f6eda3e625b1f8bed5013324e4d9a9fb813478; 0x2a7cc9f3eaa30349d41e35a877c68d034732a329638ce49242ac308b44fb6b53; 0x1c2b3ca87ba2eab069811272d55682cca6cfa49a6b8a15920c4842fec77c42b9; 0x1d2ab9695602a7fd14b86504ddab6aeabee7b0404a00a6b16cee2241d32f6ca41; 0x17001d0c9bc2c1d83b540bfb79301db7a780058fb7dbc54022f3ddf2fd11499f8; 0x1ade8ff02929a4507f7f1bd102df16d91cd0ffbddf7d0bf6b23f182370a45531; 0x229c51b3f83145568d3679f0e9d3d2c22282d048ddfead3136778b1c427d80e4; 0x154dbc6e108d2587f6b057404067f56f704c1f4068ce7328b082cf7d4a7923f96; 0x5c13956f0509708a5cf3c1bbee50f532c06e9b7e4132580afdcd80caca96012; 0x859be208a8b5e38eacd6f926e88bbbd83ff6c2889e5fe5431cda18d0b05dad6a; 0xc98ce37101e2e357f4891ab266b41a411ed3d80d1dbebd1b1a6d1f47a77a621; 0x685913ab6713c0658b14ce1ea0bfe7949b797a78603b213e711b1889b974f33b; 0x1b0a67320d144b456a86252b65593c53e2bf8b25499668a93f70b5a809dcf41ca; 0x361f7d8ec39a77e62912edf31b877d4b2766e08409b1bca3370a90f016f57571; 0x191fc631b0c326a0f6522fcecbf210dfc64ba355bd1870434d23e9e74413de13f; 0x1db071685cb5d97541c339163032ca7b5c2b3cb8da1a2ec41c6a66812040dbdc; 0x1421d148e963612c4e395ce3f660c6ebbe43a91b234a59c789363bd532fcef556; 0x1ea13c9e49fcb8deae8993237a456c21dd8be619a839b8170dbe1be55c963074a; 0x1440ca352f060a46cca2ae47bdb9ad95a1517fee87537f2d11128b1b691782b0e; 0x566e7756d2eb2d037ba09a692c08477feb384444f8bd44ab9c653f9901c160e6; 0x322cb7c48229b2d6688d573927322a9bcfbf239d7808b3e794b3504035ea4910; 0x1f399dd9b52c03725c2fb73d70366c32fd0ed861c7b56f258fcaff2ff32cd1b93; 0x199cf4ec46538d2fafd371dcb9549c956ac71d02a57279a4e3383cd790472a211; 0x3f80fbd95205a8daa517a9ed5dbc8bd9f312c2e3bb0ef8aa91bd8df4d2ba1ff3; 0x5956ad3f6da27561d2eb3927cbec593604d8edaf4070d798e27570704715547c; 0x9e52c0212b5089c9af015689f43ebcc97cf9147ac88de4507e3aa62ba219baa; 0x18f7d5eb83b8f7b93cde34a228a77c4e33ecbc775e941a0b66662ffad3ab89fa6; 0xbd0eeeff35e491de626f6ec2d325e4c25bc6893670d2f43d32c28c387c6df36a; 0xae2dc0ed84459782f09cc5491aa7090a7cc75b83fea9da2fe4d397b603420bce; 0x199a226d719db0860a975cd5a8820d6567bdb8a5bcac8a91ec06fbe3712a7643; 0xb12e4252e3cc0b67d9d281c3fd20b93663a5c2fb7e7d7f1bccf54d19c881796d; 0x11d060eb38409ea0e6cfc8ac5bb57828674afd1e9e14c29d083afcbdf0eadf42; 0x115492dab161e96239dc9dede6c1ce167423d3d5cb230f30d2f2799151cb7c4a; 0x1a1bd5e5400ec515d00b30fddea755d015013c65ca7e01bdf94759fa660d7846; 0x7c55299b9b561274bb4444b155977629d009e9069ec40724ac7db346b5b6d5; 0x1666c4f583b90a198a44c63096d48bdcbeadbef83c70e28a9757a2dc6191f7bf9; 0x88b17efb1784dc505e7050f6ab6885c1b32dd9f0aaabbbc93babd3fe4521157; 0x19a34a951fbc791ab068728986004ea2b6c946e5b87f2b7d94f6ad83e17a6c33; 0x1184e9762accb22c4140978ec5f9b1d8cf8ecfb9bc8f1d5da8d07eeb934fc948b; 0x104f65cf8a93cbab7a471714f1240adfee54d68cfb292142df5725118de1a5e10; 0x1511272bc7cfec4576d55f84b61fabde8756ac3a720bbee5cd949df82d0f9dbd3; 0xb4970439ca951ade67c9f65884f439a352070a4f93c45576f387313a52361cd; 0x42d712e134b5402cb325c14e849fbf090ab87cab1999520108059ce64193f11; 0x15b13e60d74dcdead5405e68f7c0f1d8e45d4bd4651339451b97aca1aad7a990; 0xb65362a70993ba9fa9cebbc96f300e8500d1e03505d92c4628f07ba39b64435c; 0x9285799cb22ccad73227ade79ca2fd784374db6999036521588a52959603c306; 0x18e9ee8258b95561a1dc435cf22b289768da7469a7a73c716603666abecac7484; 0x156387ad770828ea1c57b51d57faadb123a69afdec7f461188ee63496c06baf4a; 0x1cbe7b1b9f5eb5fd0fd56509b6d1bd34a72072e043d9fb25eac6cab45f80789a9; 0x4aceff75b48b93f6dfb6e639ac3285a9258d99434728db0383493a1ce8703f63; 0x5b88cd217e9c24d03cad996c12b2602805a796cee8c3c682ac99c1e558acde0d; 0x8a1976ba45a6796a382e51b25a73a5ccd698ec6fcf8ec49a5eaf0b3661b18af; 0x1fca631447be5ef1fa04790aef73e52586c4989ace3a721284e9bfef41945518; 0x1d934ea2b2d2d98d3fe16cecabd6546dd79bc6281a60ab9209f86e7eaa6755b57; 0x84216c24b115fc8b982fb6299ca3d21a87ff9b4963fda7bd691b22e9e549672; 0x1dfc2b7f368b222510d8f3e5b6bc443feb8c8d6dd061ed318e6ebb1010197944; 0x11a86d98b2ba522449a5fd2d46af533878a820c1d8bb9d0f90077edf979a0548a; 0x67199afc6354022eace508b3f3983134d6dac44d7c2b298d8675e4e1c8340df0; 0x4005394b05e030aa32fc806b262f3f945c36e1eeffe973e2433818c71e170127; 0xbbf8d8ca2a0c2bddb26b6ffbc87b9329b3c6d729cd56c7aac6d93a813a4326e8; 0xdbcf92d02b2d2fbefe25873ccd04497eb3b61567aeb353a21673b7ce7444179; 0x139f1d7ec964ad29b663ebb74b35a90fa4978d478eb6f76e4d1e69cdf6a04cc36; 0x1b070a321ad6c7fadb7cfa4e81a3920c2d9d7b4f95378f860ac35ed6adb707b9e; 0x188ce4bbd0b242577628c352b2783b37ae96ca64c0024ec2b703043148d9823f4; 0x1c50747567493823126b9158f05dc2ab3b102326abb72aefcc60f58afe50b42b; 0xe2704e9e431b62f2f3e851b725e7c94400bf218b1b7a266f7b9b64582aea1; 0x1d6afd71c97eea8f2acac99ba3d7c0134476c056bb5ba2d7f7f75a158467b91d; 0x2e5e46862ef69b96af088cdf3a203f06b0c56cf113dc9ef3bbfa044fb34213c0; 0x1900c1e829784aec905922d806ecdea7cc483d3c39f258dcbe882c9e6a2ef473a; 0x1ee3e0c5fc772770b0dc40c6151586e53994df5aa0091e4a041093d216c0cf6f8; 0x21cc75311cc21fdb981a2b04790b4706a5829c987bb3e03d6a90688d275ba805; 0x2a3d4129bf48b14892305263f6aa43eabfefa7e7454ecab14cdd5000e81d4f5; 0xdac0cb5deaf2d8d0b4a1b44e33f0d800f9e7c1987fc76cff0fc097b8a75dbff4; 0x114b2fc049b4931106af591c4ce220057ffa4bea4acd762f97efd58364d5d6181; 0x1e1cc32c0d93a7d312b8a15bd28eda932393b11b8fc73ab70b9c58cd8c565b440; 0x164d889f2d0d6e11a0c3938631033982ecf7e75957509d5822b130f85201122c7; 0x887df322e13b73e01fbff66d8870592e035782d8921859d8e29e561092759f66; 0xc9313aefe9c73539b21f7721de909988174e84f7a46f6467f844b32e59574c2f; 0x1d4b4593e4e375a1161460c3d2409cdb6dec73acc457e2deba3185f6ae033591; 0x557035d1c92d389e223f319d49b599d605c50e080afe9fb178be7ccc12ff553d; 0x14d61d04b19e4fe9fe3f91e2209831a3e2e98a86ef50c1d90c15e6a205bb22dfd; 0x191661de5191d46e546217e6cb248da3041fc714a8d3bf7bd1fe875fb3c4bd4a; 0x1260b6407cc023e43d81e8b1262d6402227d78d1a7f166ff6146cad34e94a3a06; 0x3fcca3197aa0684d99883f150702433efeac6360a28459d5bd6738e87573e35c; 0xd520009ce2a0be3334fa887190567bea6df57caae8acd84f5d7ab1f060cadfd; 0x32094afe316141ef080c6fd0976e8db100ff02f5f5f286a2928fcfcdcb5e83c1; 0x4e3268d5decc4e683a39b350933c25e618010357a9cd2e21a3314f2caa3aebb5; 0x490658e543d5292649b815016a3b1f104ac0d13a8d3eb7ffb5c3f1b13954b0ab; 0x86b99781ee8470ec44b5617d939e2f053921a284e59ff3219f8a333306ab5899; 0xbff941cbff622ab2a4e0206bbb529d09691db92e1b03a014bb5e3a6c49984149; 0xf14cbd6e50b38c8f513cdad05bfb784d9d40cbbacfe0d105dd676dac0bfd6c1; 0x1de879c286f2c05df48af207819737c5b7305527826b46da4247256592fca27f3; 0x4258bd11bce2c0712759d9d83586c8fa2ada4edef42566bdb6c1255777b05182; 0x618cf4a6d7974ad7a2c36ca61b4f8cce9fc3f60ddd0e400e3aa8f0ecd18d6b07; 0x8c5c847ff1c8af01431090606c55926e8fffcfbd76995aee3f5e7f7216fae13c; 0x2f63c96cd8f876bda4a204efcb36b5fc162ecdb44ba63594ee65d0ac823b97; 0x897f8058ddf560eafabc4fcc57d01b9b2a4c8f535783c4d32564c6becb12d70; 0xd7f3c59eb40b4503aa0f38cae5481b89b42a32259c2a090e5ab0d66e80d1a369; 0x1ea2111ebca9e67561de6b94b83c30821abacec06758808bb61c1389b3e3638a7; 0x1fffeafa18eb6bc195e59b95249a42ab18965be7c8b6a210eef19951377cef423; 0x69f41f22895b31d5c35b806c91393e31a8a4536a1cde1056db89facebb42d1cf; 0x5903635221b429db232105d55ff87b7b9d3d9649d66c3d2ffbe07f87a25a6bc2; 0x5000b42b97aef61a0be5fe99532bcbacbba9eb7d94a89943c5eefe572b2ede88; 0x569bfba1eaaeac1ded3f81cd47ecc50762d414c702d70c585e6a70267f2e338a; 0x4b1dc963b8f2091ef7b53a711047054737e806d111af7cba57f57af4091a31a; 0x3ddff4c7c33e51887ef6504380d1afda0be396de8772d4599ad8a73313a6ac80; 0x97127a3bf88f2e8de7bf79ef7a14baef2f1be8c2d2d3692c9d9fcdbdb090d; 0x1604b2562ca3b2de0c3364131e80c4b3387277f52c89403f2b2d653ab7e85f63e; 0x18fb5b75653ab6b2bb0b68dfe3e513d4b2d444f4b224a476db569284407dc05c; 0xa89988daf2766dd0be693b3f5730c968e2d04120d095fca6eb7c4a24532a04aa; 0x1822acb06a4daf3f7141b74419c4e04232c05b449c22a85c6d895a1b48468cf00; 0xe0288b2395ec77bfa7a79fb45fe0f6aa31f4f2998b13f0a4b5e938e85527ea8c; 0x1de2788914a5977b791bf06a2a48f91a8c6603afd36a527d10273df55396d2f1; 0x78a3d7b396710813ceee5d789803a208a7dfdee53e878ceb6d448bbc9a1fb412; 0x4fffc56ab561afb59f54f20bcf299192c8363ead35248bf748f2843ae43e44d; 0x29c7b3d71ece305704f05ab561b47c45f97e3b41bd9f60a2fe892042dd3607cf; 0x1e39bf0bbae76647d8cc29b44ad1b74ace3c31a06fe9d7e87a23df7b472a6948d; 0x21c58510308a9664314fd1cf8d73f9b362ff251e55c09e8758549480808a268a; 0x3ce16d89342992de5c56311e3ac04fd309265b9eaf7387bd7381339965afce4a; 0x12ef654388a4998e1a420d307a952f4afb4f8f53d012ec6a69f4d4bc431c6303; 0x877b1c715b405211eb465f5973a8fc161d8dc1271b77b4f2fea20b4e9b01a7f5; 0x993cf561e699094cf1f6c1e8800ec6d21f542b06d8ccb8d5bf717f73fc8bde6; 0xf6157b6235a2fdcb0776e360b317679843b30cfe6c38008f1518ec2668b9277; 0x83e463f0af0c55d5f4480dc0c313578815bb22135f9b1acdbf5cd0b0946592e9; 0x109990e38666b41e773dac9e3ae8139338e334f1b55ac17d11c1f4b82fed2704a; 0xed5f6313a28282f6f3fcd9adf0d9326bfcf4722434425c4ed90cdd9521a312ae; 0xcb698458577c5c3c7cd8f68eb4d094e4d21aaa9d99db64f1f509b3a054567bde; 0x19b610f8bbda7feab16b0d07325f548bee54f6866366540a3f226874eaf4bc6; 0x2380c9760d7012763e33c21670d8319bf160b7183a75e9f0ffbef19e2bf46a2a; 0x1f1af1afadeb8a87af79c5aed9526a59fc33c98c4c49c0d7ad0267f1cdef436d; 0x424fc46e0efd550b261fec5ca3a7c4d2ea91034a594726d93b41eca0e32bd512; 0x11ae13a64ac11b701ef846a72fde907fb03613fee420bb91de094fff405ec1450; 0x1dad6a77a01100d19f6359127e6964605a3980d54c00da64e8d46c2d4bec7ffbd; 0x713647fd04754959a6ae1004cda08b5125e8a8f5070b801a8d9142fee2d26567; 0x10eb7010c61475c494ee22aa927a5e3c325272b567ee71bbd9c20f2358ad827bf; 0x79383aa8d249ba98c94819b4cc393acdf4bd74389718e749e8032937bafe5330; 0x1b55ef48173d8987e51585c71adccd950f7e62e749fce027cceecda802c86dd70; 0x6e411597cb4d6496454d09be47b9200ea9ef645446161b0ccbcd62dc85d185f4; 0x1fdc4308812dfd869c1d87d1d95e7f7624691dc3b912fadc41dbf902725f734da; 0xb0dacb09535972769f73528f8d3571c940bb1415d28186adbdfeff673dae02ce; 0x20f046e292cce466228925b81d2e96f046d3d115b0b5e228de721ce0dd66f1f; 0xff984e42103e53683f58ff10d954ad5a1f5e1bdf8d8e22d84f78ec9aac9a0436; 0x6f53eea4e0f6386694dcf4d08afbb05885babb7df4ce58c0ff5044f072be32f2; 0x4841da72f29087acf2fe3e4243cf55edeafa8d3065439fdf6c350da3997c84ac; 0x8a8a058f83220b22047ccaa815907e5cb3cf7f59f607a376b03f80ec59215ffe; 0x467f17cd815caccd5899c5fa1ad01e3ad66613ec27f460cced0a31be28efe7af; 0x136efbb29942b796095bd874f90675bb754dbbd42fa7b4fdc4cc579e8b5367795; 0x372a74a68054bfa59a5e65267b1444742d227548362ae7a7006a6b29cc2a1355; 0x4ab03682ff1402be3373aadcac9860fd4a311744ae2cc2aca1773507811158a2; 0x1059a074611e78548d53c464805df0c2689e5a8045a8721a7c66b892f32f3c225; 0x59862c4e9edb9f56a8b8c905c8cc48665f7240aa5742a854db1af5f000b9473f; 0x19ad8aabcd6f40b81f16e3874cd91de000eb5b4720bf3e6efebc5419c5edf55f1; 0x2984a2f4c657e378a00e34d4f3d26752997dded31bbe49d7a65dbf170a02e66; 0x69b9179c240fdddf4a662845cb79d9a43be34eefea5a17a0ce6ddee29107456; 0xba1d28702128b9b64d94829cb13c093e71f731c3b7eea5b539424ecfeb8934cc; 0x1b70b9c14214f7d1a689758a6da0ac2892f82bba9f79f3807e757ff996e6e1b53; 0xc93a85092b87a23eb450b12a94eebfde16e5a35486aa72a4233e02a2232380; 0x1dfa66efad758684694ac0ef0a038cc04f32193dfe33c2dad16716aed39a7815e; 0x4349a087beec4a75459673471f84ee6c05b4ae359f0555be8564d953fb464763; 0x62c8323b9abd1432619bd6c2b5ff2f4163024f19bd75724b4b2d4865e6fae67a; 0x1de25b7b5d8aaa3b87b19066e09769211d97bc0c313ece143a542863e6edabb8; 0x602e31ee9d3142b73240c2c30eacaaea4f8dd6e63000f18eb642612d7431003; 0xfe0300bcc7c5d52dfee66dc7dbf47e1159ba74a9dd037a51b4f0a67e07cef495; 0x47d27c2e943d9511cde9e3041df7305a52e1f9f33472610aa5c5cd4876313ffc; 0x13e9bbf23fa3683fc509b5a8f9a4e46e107f595ee7b3daad309597fa14a2ec434; 0x1746088cf0e511849d7598a4ea860173d04491d4ab43a1e906a3e6aad72a2e86f; 0x7e697f5ef236ddb1b1cf8b8e2a53a76d0d2a900273dd30f99af755ce1922a642; 0xa8b58d7b155bb236b01d3b3345d27b67dc703ce19dde81af17ff74d717c824e; 0x2babc044ccfebb5500a9b2d49a43d2705b610a613eafcb6dcbe07d07ed3183c8; 0x408b49c32021f9f85845a7b605d2572a6e1d62aa886799122aabd7c3b328912d; 0x100bd7388e83440f2350d06948aab0297396e038a32dff6ecef1c72da26fb63b7; 0xdb572e76d5c9f395707c742ae71f37dadf26627c67d6f4bf95ce13ca0ce297ed; 0xe3d1a41b0f7442598f7d5492109eab97ef65c0a7e11328578d374bfd88d051; 0x15e7becf0495b85ac9c4a58c506940ef412ccdd183ac710b564314905e36ef91; 0x291ea4658530a27eccc4745fb5f691c44c2c1c2b20d46c45e7f28b598139daf7; 0x1a2d3fa56f18f63882760ab44fd1e3adcca9d16265b5024b4a5b69cd636581a3c; 0x2495348be5ffa8ba798547dfc2083920de2670318d27dbdeee3249f1ad80ba61; 0x12ae08a18d50ae2028d85865f42334eb709339c1b49c25918a1154cb0e5ebab32; 0x1ef63b63b81235aedb026a939f0029c4d536d9c29c28a906ecaaac2a8ecbc8883; 0xa32e94ecf01f6726a0b7e17c20df83384e4d4ab555408853e466795a67ed50ff; 0]
    [mkw 0x1db8260e5e3b460a46a0088fccf6a3a5936d75d89a776d4c0da4f338aafb 0x89d2a
       [0; 0; 0; 0; 0; 0; 0; 0x80000; 0; 0; 0x200003d10032fa350519c457351f7134710d16bb; 0xa518394b870494dfcc16772b86f107b16ce9f20941c6db46a07a0ca29a54cc1a; 0xff31e233d71f1785815438131bb37755fbae5618ba535580721b6b284fd9bd95; 0x15fbf89d83e0e5dbc34c25d09918a0013fe949dbc16b5bb543df7bcbe032eb10d; 0x1ca31ed71ef6f603435d1c608fa1ef4225118e628760fee05f78c48128120049; 0x9e83586ce9a67637611cd407b08afeb026f00792f7827f1059f5d50d5a89b87; 0x2b3be701a81bd31c49e50b6fb4da2a5b7390725ed52f84a64d534f2a9ffe7d7e; 0x16f6363476f589ce05105337e33102c25cd62384f6f2b93638ddf6557a516fe5e; 0x2b95706e0b742cfea2e356c1004983ba2b09fbb4a4c701ef1bfd7b2ff257d10]
       0x55a50f4e5cae279e7cab8b266ff58ccd44df516a804a84c110b6adb787d46fc7 0x1649abf4b0bd3b6524397b629ea1c88c293cd1ac44ff54631ec325633b8cb5d8]).
  - vm_cast_no_check (eq_refl true).
  - repeat (apply Forall_cons; [first [exact prime_205115282021455665897114700593932402728804164701536103180137503955397371]|]); apply Forall_nil.
Qed.

Lemma prime_1871 : prime 1871.
Proof. apply (trial_prime 300). vm_cast_no_check (eq_refl true). Qed.

(** Base 2; factors of n - 1 used: 1871. *)
Lemma prime_1627771 : prime 0x18d67b.
Proof.
  apply (certified 0x18d67b 2
    [0; 0; 0; 10; 0x4ad81; 0x23d5df; 0xc100d; 0x5729d; 0x11b7c6; 0x419b1; 0x173170; 0x7a1fb; 0x56827; 0xe0417; 0x6525; 0x22e130; 0x1e68b5; 0x4572a; 0x5508; 0x18d679]
    [mkw 0x74f 870
       [0; 0; 0; 82; 0x523e7; 0xcbe7; 0x207f96; 0x685ca; 0x8e588]
       0x8ff8f 0x508ec]).
  - vm_cast_no_check (eq_refl true).
  - repeat (apply Forall_cons; [first [exact prime_1871]|]); apply Forall_nil.
Qed.

(** Base 2; factors of n - 1 used: 1627771. *)
Lemma prime_297159362677 : prime 0x4530140875.
Proof.
  apply (certified 0x4530140875 2
    [0; 0; 0; 0; 0; 0x7667018f; 0x283122935a; 0xec750cfc2; 0x3de18c8913; 0x71f2cb4e01; 0x9e12932a2; 0x3e1212ea7e; 0x3ad63b179d; 0x464fd5ca9; 0xbeabec0a0; 0x36e6c048f1; 0xd9f1f032b; 0x72f02d62f9; 0x60e597baa; 0xfddad1c19; 0x267a3beebe; 0x422ed193cb; 0x4fc60ad7b; 0x112c90de5a; 0x46ca4b9b2; 0x393c3fb98a; 0x15071a995a; 0x16eb7d59fb; 0xbc22b581a; 0x2e954f8d50; 0x17c4fb20cd; 0x472d9685de; 0x31e7d70e17; 0x41138a7e77; 0xaff54aadf; 0xd1586e640; 0xa416ef71c; 0x4530140873]
    [mkw 0x18d67b 0x2c91c
       [0; 0; 0; 0; 59; 0x599ca2fb8; 0x929ca3821; 0x122605787; 0x3d74df6308; 0x198a1989; 0x35c8ca343; 0xe5c2eef31; 0x65307f2c39; 0x75aefc044; 0x875675e8f; 0x2ba9c8fe8d; 0x44bfc66fef]
       0xa48b1bca0 0x3f38050a3]).
  - vm_cast_no_check (eq_refl true).
  - repeat (apply Forall_cons; [first [exact prime_1627771]|]); apply Forall_nil.
Qed.

Lemma prime_2731 : prime 2731.
Proof. apply (trial_prime 300). vm_cast_no_check (eq_refl true). Qed.

(** Base 2; factors of n - 1 used: 2731. *)
Lemma prime_305873 : prime 0x4aad1.
Proof.
  apply (certified 0x4aad1 2
    [0; 0; 0; 0; 0x6db35; 0xba3e; 0x85953; 0x9a58; 0x407d; 0x38bff; 0x8aba8; 0x32c51; 0x31d0b; 0x834c3; 0x1299; 0x4aacf; 0; 0]
    [mkw 0xaab 112
       [0; 0; 0; 877; 0x1b44d; 0x8ac1]
       0x1737d 0x115f5]).
  - vm_cast_no_check (eq_refl true).
  - repeat (apply Forall_cons; [first [exact prime_2731]|]); apply Forall_nil.
Qed.

(** Base 2; factors of n - 1 used: 297159362677, 305873. *)
Lemma prime_29047611873442575647497758179 : prime 0x5ddb9f12ef6348a3e23ba5e3.
Proof.
  apply (certified 0x5ddb9f12ef6348a3e23ba5e3 2
    [0; 0; 0; 0; 0; 0; 0x15d1f9fad3f1c3cd43d0e6fa; 0x22870c5cce923cc3b3136c3; 0x46aa1aacca6d523c29763682; 0x632ff377a3388d22ef3e01c; 0x9c4f28611ca772399d5fc; 0x1c5407ed459c57e0c6211a42; 0x4ab62dce94580cc33463a487; 0x95baaac4d9b0fd1b32c4a242; 0x837521b35b15dee61651297; 0x1c8cac434a3df0cb4707624a; 0x31da912d3d6f4ba1764eec74; 0x83c71e5400b374a21d47b5b2; 0x3a59b35d578e41d6bf7e6156; 0xa436b50acafa8a754e5b6e70; 0x11c3b89d03416b0d20d34472; 0x6a70b2a5cfa71ba584c4ffec; 0x1d8aa00d538076ec00c3e85a; 0x28592168262fbe5aed3d97f; 0x4e57cf79545c8ad7e3ee1ec7; 0x886e64f2954d8f24bd4a80; 0x16451a8deebcd70157fb310d; 0x10050b9d69e5ea0f4e94557e; 0x42a7a93e2f65c79b0e3d303; 0x696715e475a24a30d1449c; 0x267933bdb6716001950c32fd; 0x2628b2d87aaee2f8c5624f6b; 0x856ef08770ae374626c20f4; 0x4ec25cfba976636bc9c4ebea; 0x487cfccd1594c4f81109f7f9; 0x1466d076d8a8576d2edde863; 0x4a86091da94ee2fe9e757919; 0x664f5237a9da9384af8b6f83; 0xd20ae8d56195c01cf2a6cda; 0x64109cd4fc0b7d937e73e; 0x2f9693ada7798be006446f0; 0xfa08f0281fef0f4b94d1ac6; 0x25c9057102ed9af690683b3a; 0x166843b8714e9ad44b4158a8; 0x60d9ed3818df6bfe5f004a9; 0x6270f766ee50b44eae36a18b; 0x490c618afa72c928dc04539; 0x8f22d25867a19b126fb79554; 0x41023fd623801436c4e110bf; 0x1a5d955b60bf10dd6d6b6bbe; 0x94445a8f5f4aec6fc0dc578; 0x3757cea390022b4755f27; 0x189974e6671b94566098227a; 0x2def7dbb489c1271612e9195; 0xc64cdd6ddf39147a83caaa4; 0x20ebce213b2aa9a1ad99bbc4; 0xca324c8cd160239dd52fc; 0x173ee814ac7bc6156d1568f7; 0x9e488fa04d7498cc6bb7c09; 0x3d2276923505f8a834fabf; 0x475e24e9bffac2c4bee3407f; 0x5d4d2e5c4573f21e0da9f842; 0xbbac69d80f60547e8637c0d1; 0xbb2bf81707b5a610d2cd53c6; 0x6a89add2910aefbffc1c34d8; 0x80a3768cb365a5ee81b50bf; 0x17942857b3103a8695db84b4; 0x4403e52177dd6a0cbdd6f47b; 0x907616851b2383d45606936e; 0x4970cba31934958f98511bdd; 0x3628406589a3ab7377d616cf; 0x14bdbff18a6ec168bcdc1df; 0x18f7491519be2c9db555c252; 0x5bb3e49a9bde9fb0bd7c1505; 0x337dabe7a40e01ad62491d4a; 0xce5c237d57f0130712b435b; 0x3ef740ced5a21491cdc934af; 0x384bf8ae55b96e3dd459fe; 0xc9450d62781eac79f0cda17; 0x7956009e4acd86787236743; 0x412338fe4b0647748c7639b7; 0x2cda615a027bd746defa8cf4; 0x502da2edfb07c801553d111b; 0x47db11f0bb1c28f21e078fe4; 0xf8608971ef7ab4cc8e72b39; 0x2ba7ad66dd9687abe6182bde; 0x933d56ee025b76f197b27098; 0x12d85100d39687d6d0f2d429; 0x9f42da9577ca2860bde0bed; 0x5df245ea558e72d6d8550f6; 0x14d5282510105ebcf37ff718; 0x7f4f3f39263146b0e7feb39; 0x1cf6784a6db69cee67738ae2; 0x5ddb9f12ef6348a3e23ba5e1]
    [mkw 0x4530140875 0x15b47fa125e621a
       [0; 0; 0; 0; 0; 0; 0x5747e7eb4fc70f350f43; 0x459fac89a4e1c25bd9bf71ac; 0x2c610e8d9612855365348de4; 0x380b9fc2b02cbf6d587f3e9; 0x227e6bf83ae38a58a62ce3d0; 0x58f45b0a5fbad5e31ee1c8d; 0x2def100b3a5b7dfb2c9569; 0x9830eff4305cbfa76c46dc60; 0x688057e46ba5f65c3112a77; 0x79fb43d2752653c1ed850396; 0xb829deeabaaa44656939f2f; 0x1dc93bdba99200d0b4007f84; 0xb9ba1b44520571a3641a55a6; 0x17f5d716b134200754fb9098; 0xd360084f6fa67c4160c06fb; 0x1750c5157353d8b8e4ed93d4; 0x4283d6e885e7103963b13e30; 0x2e403b046fea6a43cd34193e; 0x548c16e9922fa5b4c1cd94df; 0x1adaa24a1b70f6d0ee245823; 0x3d15664d8ae1ec3d08e69064; 0x49f1404559e9c0694744f0c4; 0x354a52381a11d955663531e1; 0x2627dd02bce7832b21607d; 0xafc22da87730d19486e22b78; 0x4122894d6dc0251b6691ebac; 0x249ee01a7dbe15777a61f2c9; 0x7018a8f66786d6746bf0ca97; 0x147b641534902db23892d05; 0xf472462febedce8dc26505c; 0x1357309fc8b471254806c3c; 0x5ff6104c10953762a6e8e168; 0x22254874443fdc938c20a881; 0x18a732a92d8607afe2d46a5; 0xced75c062c23eb0ffa39cae; 0x636418211ecc5d700cc8d93a; 0x26113fe87a9e97e22e21ac67; 0x51ee6392d0d0be1787c27ef; 0x4eb553fb2cb2eb057c7f2a2; 0x25b7248f8fade057cd65074; 0x153e346f1711bfaec23018ff; 0x5db88d3fd4fbe8482e252d1f; 0xef481442a7db71e315480b9; 0x144a17244c314426db9ea72; 0x333ca21654de4dacbea182; 0x2619d8ed29a398124e6b232; 0x526cec965b5cbbbf3c38a6b3; 0x208d4ac6efd53515224e06; 0x983a316b3f4a8d6e18272e3b; 0x3d58661e60b46b09ba0525a2]
       0x19772c4448ea2e06c03560dd 0xe14e85d1eb8bfd9135de5fb;
     mkw 0x4aad1 0x141c21786981517cdc42
       [0; 0; 0; 0; 0; 0; 0x2ba3f3f5a7e3879a8; 0x2ab619f0645c6531d77f7742; 0xac1ef47751270c3e0735e54; 0x40d26eca569bc2a718137b62; 0x4712d038b1ce6cc0d06ba99a; 0x73fbe74cbeb8ad1974d0d4e; 0x337f36f5d49487dd2beb8f40; 0x27486e904e259ade14ef447; 0x8294a34e7ec50dfd9511c94d; 0x11a7cd509b1fefd5518b360f; 0x44b21b04e5376c6312f879a9; 0x23f3943bdbf38b02124f738; 0x4cbc589212d014763c6ee0c0; 0x65d7e23cc4bd7886334b2419; 0x223fce55c4078981f5287f63; 0x8c0dfe874fcf37b2dfc590ef; 0x3238383a8e5232e5b3e7e726; 0x3c9a5145d30320b3f75d48a3; 0x2d7ea6deb7ccadfa6449ada0; 0xf9ed7fc7507f30f0cf93e09; 0x55e7340c4be9f8f36b410a5d; 0x9fa05561a0ef0a8fa49bf0; 0x21b8aa76208953f898590e3c; 0x2cb428c4eb6ba2beb6663644; 0x66c5122f441eb2ae19aebb3e; 0x19df33fb5b99be01c67f8284; 0x167e9ea056fe358ee03be5ee; 0x549ca95248396cdfbe985e6; 0x17e2432158c57e5fb518629a; 0x296d7925290849d38c4b9513; 0x2c8d7497d6e2e04458d83ad0; 0xc9dc4495d233fae1986ad5; 0x9982fb92e2ba9026327f6a3; 0x4438be43e846def1002e256; 0xbe6f41ae0a7d932fd0dcf3c; 0x1b69faa58e0245535fcdbedc; 0x46541a9e2fc75696fb8998bf; 0x3ff906f59f50ccaa800f6fe3; 0x2277f29fde147f20df7237; 0x980f89a56145486aa3857885; 0x1110dac61936f8329469c8e; 0x7ee4db5e68a82e47fc1be1b1; 0x315a27ca2eea04caaccce73; 0x1743afc5de1e9b603010e0fc; 0x2a8214ec574e094dbc67251e; 0x7390d8b2c69320f54efc730e; 0x2543c1946efc60aeda219dd9; 0x6a6f7bfe27f2e2aaea23165c; 0x1b1a14c1d5fa73b5c6a359ee; 0x48cc6994067ef19ad18e56a3; 0x8237501031929de5374b6332; 0xdf413ac1c95bdb1d1d0c3d7; 0x2a2d7f1b820f363b5fcbc26; 0x44e8eb6f68592f879d6376; 0x14198c151e40381b0db7; 0x14af82a1bea7090f9e56ab9d; 0x541703bf469531ffc67e001; 0x4079e8cb08ce2f83124da239; 0xa87e9ef3a7a9a7d7bb29b699; 0x52de00c29b0c9197219ee0a2; 0x1174123c0e585f00fb93f05b; 0x400bcc9dd66578dbbe96215c; 0x28b7625286b10715609522b2; 0xaf63357490685d688c00e192; 0x2a0862dad5eb48b55553faba; 0x33b670d677e5e99d16008bc9; 0x14eb60bf890b9b7b061ce951; 0x32f52f708b331f991fd6103e; 0x2c92a7cf5bf27dd767e92b2; 0x5f1cfcf8c4d9804d329c031]
       0x2320de3b9c7e245562225f67 0x12c36d9cc2a5a4aedd9f7a45]).
  - vm_cast_no_check (eq_refl true).
  - repeat (apply Forall_cons; [first [exact prime_297159362677 | exact prime_305873]|]); apply Forall_nil.
Qed.

(** Base 2; factors of n - 1 used: 29047611873442575647497758179. *)
Lemma prime_341948486974166000522343609283189 : prime 0x10dbff26eab8198050172ee03275.
Proof.
  apply (certified 0x10dbff26eab8198050172ee03275 2
    [0; 0; 0; 0; 0; 0; 0x3cbcde4; 0x7d94639de44c8b12cac6bdc9ed9; 0xf3327c5ac6a20f9880c91bcd04f; 0xba6c12f63c352af08ee9387395c; 0x887da8723d5205f2a1c9a50f6d3; 0x138a50218146adec6b75722bb2b6; 0xf1b66494f82984fe69ef865ed2a; 0x1bc29ea54408a081553d57a4f78; 0x90499d8467182494ea0f99a5d9; 0xcbf6fe1f4ef71fadee1e46523e3; 0x162d3b094c554e17bd019406b6c8; 0x11482c6232de723db38be89b5cea; 0x5eb655d2faeb843f9b05cb33a59; 0x128d789422afc0d502ec918280a3; 0x1ccaee0a0a1a78c385f54cf6136; 0x144e3e10aa8076dff33f54325ee; 0x8b4512817726074fbae81eaa4f0; 0x1bc02448e26b2625e4edb91344; 0x3175813c4696ffe383988ad6af7; 0x300df71cf307420e45a54d530b; 0xc5669ea73f55ce57baa9f54afe7; 0x22f72b911d03b56fd56f03a24f; 0x12538f1658ba7af313ad0b421b11; 0x32bcb6157cb7f1064081b3f7557; 0x124f1393cf3e7221b539ecd3730c; 0x1c6d1ad58cf41a57f7da61ad54a; 0xf6daf30d5c439c992fa037fb9e5; 0x5dd3b22442c3cd21b4dcc1a4807; 0xb7b92a13ae45e50508e7674bd69; 0x2ee80f934e4cdabdf88805168c; 0xa3d9f374abc825a98e8b96d970; 0x1b54d253945f9f6f95b8eb0292; 0x8345e8875d70c4de94e923fbc2c; 0x64ca901061b11a39e8dfc3ffbcf; 0x2c60ed3396d9b2ef21b7d6a778; 0x20e6080d9f204eef961fdca6f2; 0x6d77d51c4bed8c9aa0846e8c4fd; 0xfa98d439c1584014c42b1d56790; 0x9f6359d97c0ee4d27e002d2904a; 0x16cdfde31d0f8cffb9b6d3165ab; 0xc99da1b895114e67ad2d487bd2; 0xaf6478bea5c5f816c40065026bd; 0xa77bc2e5d0c7fd1a7dee8646e8e; 0xf69c1da6b5763b064d5728fb8ba; 0xbee75eb49169e74ec37296adef6; 0xbdbfd7cb1a88db2f09cb247fefd; 0x1186d7d4a06e706258e79df0bd3; 0x171abb0bb74f4c06166e5693bd1; 0x4c94b8070ac870becc663b331c0; 0xf002c58486daa49403f4d3e151e; 0x2ba0712804245802d0140844da2; 0x2a5ffda73a2ab950eb5b083f470; 0x38d064a8d834bca56dd12fea42; 0x4d18dfbbf08c6034bac7b94e0b7; 0x8a896d81583aa91e551025c8c6; 0x62f28e456947b6d21d5b757fe4a; 0x66b21b06e0f959c1d38b0a02268; 0x4a9f4c191b3ed91497c0346887; 0x6ffc0062b13b2dac94aefe85b48; 0x3a1c26de0fbb50becc945ccc9c6; 0xd645b4f54c1bf73e7734afd64; 0xfba452fbe7f9ca8b8565ab30d84; 0x1b8cf93bb8067c5f116b7f62b60; 0x450bc1682c778ddce74f14bd26; 0xb5887a99567b7053aaf135c7b85; 0x12d285d3209ff0c0225a79592129; 0xdc4a316673b54742b1cbe715be5; 0x1f4740c2bbda973f77f2f8c5ebc6; 0x2c6a787da524732f29d28f9481; 0x7d34b9999073dcbf0dd67635991; 0x1fd9a98ec4ed35e6f5cb7b46067; 0x38367ba2fe0a0533f74afbc8ee; 0x5bdde82ed1507c8a1327ad684b7; 0x43fbd3f50d3cfc971fc35069a4a; 0x41dfa80fb8964fafb6fa0012992; 0x1576a8c23a90ebce78ff2f1d1048; 0x1a88961511d282aed7b48e8d845; 0x32764dcee0ef5b2f144ba568f83; 0xd3b827979f8a45a139c4d27e3e9; 0x1f4b88f339fb25899a652f72ed1c; 0x1c320b3e141d3c1ecb3c43483d; 0xeb58807a4c1fd7418ca310d4b07; 0x6d90fe3b7ce75751d971370a4ff; 0x3080618f951d4d06efd854d49d8; 0xbd7ad366cede567ed8a4b36429f; 0x7368d6ef89f83332afb6a38b804; 0x5d4b7bf79fc4b207efea8afab61; 0xb23c00964f977b305476b79b32e; 0x1ef802141af52b73c130d58b8dc5; 0x5420f6642c4fd0c3050b77947; 0xa4ae28486b90143807d6c60487c; 0xbcf4df6c3b7a562a22cf9a505f; 0x159860e929a59c195cf59712c706; 0x3222dd0584674f38722d3862475; 0xae04e220b71fcf6f12b62e5621f; 0xc557641c87b7b4ca232b6f5a082; 0x8dbed643ed6b78cae1bf9684; 0x5176c9d0c349e884fd04da670e; 0x4078ca4993bbe253a3d3982a1d; 0x101f1af56a82ca8544a1b91c9bfa; 0x278d8b4df359aa41668433042dc; 0x10dbff26eab8198050172ee03273]
    [mkw 0x5ddb9f12ef6348a3e23ba5e3 0x2dfc
       [0; 0; 0; 0; 0; 0; 0x7979bc8f70565f73837; 0x2d19941087f2219c4d508f63990; 0x1c65f2ce4d0bb06476f293ac74f9; 0xb5877e93a63492bcb2c88a2ce9; 0x1d0fa29c4b739a1369122bbb36c6; 0x119b98c0e95950799b71cc8e1af; 0x11d23ae07c0011b46d66413ad2a]
       0xb628645e03e3bc891eeb6c2ac0a 0x9b6f2dd0eb95e1c8a4b38881aef]).
  - vm_cast_no_check (eq_refl true).
  - repeat (apply Forall_cons; [first [exact prime_29047611873442575647497758179]|]); apply Forall_nil.
Qed.

Lemma prime_2011 : prime 2011.
Proof. apply (trial_prime 300). vm_cast_no_check (eq_refl true). Qed.

Lemma prime_97 : prime 97.
Proof. apply (trial_prime 300). vm_cast_no_check (eq_refl true). Qed.

(** Base 2; factors of n - 1 used: 2011, 97. *)
Lemma prime_4681609 : prime 0x476f89.
Proof.
  apply (certified 0x476f89 2
    [0; 0; 0; 0; 0x1cab; 0xcf547; 0xb33f1; 0x63c64d; 0x82e347; 0x82dd0; 0x3acdbf; 0x4c167f; 0x1170d7; 0xe9cd; 0x3f5568; 0x2cab00; 0x4696e4; 0x3ecfd; 0x44b1a; 0x476f87; 0; 0]
    [mkw 0x7db 0x918
       [0; 0; 0; 0; 0x3956; 0x19ea8e; 0x599f8e; 0x431e05; 0x4b985; 0x44ca33; 0xaa5]
       0x16fcfc 0x12337b;
     mkw 97 0xbc88
       [0; 0; 0; 1; 0x5993e3; 0x15f7aa; 0x3dc9b; 0x3fe18a; 0xcf8a; 0x99aa5; 0xc2399; 0x232b26; 0x4322df; 0x5a61c; 0x269668]
       0xdf5a8 0xc7b47]).
  - vm_cast_no_check (eq_refl true).
  - repeat (apply Forall_cons; [first [exact prime_2011 | exact prime_97]|]); apply Forall_nil.
Qed.

Lemma prime_2861 : prime 2861.
Proof. apply (trial_prime 300). vm_cast_no_check (eq_refl true). Qed.

(** Base 2; factors of n - 1 used: 2861. *)
Lemma prime_85831 : prime 0x14f47.
Proof.
  apply (certified 0x14f47 2
    [0; 0; 0; 12; 0x1f80; 0x213f5; 0xa08a; 0x10c9; 0xd24; 0x403b; 0x11e51; 0x2dae; 0x4e0a; 0x1215a; 0x12c1; 0]
    [mkw 0xb2d 30
       [0; 0; 0; 0x30dd]
       0x94ad 0x8dc5]).
  - vm_cast_no_check (eq_refl true).
  - repeat (apply Forall_cons; [first [exact prime_2861]|]); apply Forall_nil.
Qed.

(** Base 2; factors of n - 1 used: 4681609, 85831. *)
Lemma prime_107361793816595537 : prime 0x17d6cfb8ee30c51.
Proof.
  apply (certified 0x17d6cfb8ee30c51 2
    [0; 0; 0; 0; 0; 0x55e8c520b2; 0x55dce85ba4ee46; 0x69862a3485d7f9; 0xb06973aa38d4ee; 0x18d4a33617f331; 0x6106f67cc20e7; 0x4bf81e0ea0b6; 0x21384300c142d4; 0x5d5145b9d595ff; 0x26bcfc7e8e3b5; 0xc8987cb2360d79; 0x125d89e042406d7; 0xdaf3702e471938; 0x2cec43946f0d1c; 0x290e0c80432f02c; 0x20c80b4fd252d58; 0x82df234f8ca42a; 0x26fb43a6416f148; 0x7006bd292437b; 0x1342a2fa5896b0c; 0xc39a323d3698b; 0xe34304cd0e589; 0x1f8876220ce0af; 0x1b2ea3a559fcd85; 0x3f28facc32b488; 0x7b6ce6c575b51; 0x1d7caf391870af; 0x7f05df759d70e2; 0x141a250647c1667; 0xefd7f5cd871b29; 0x25ab1a7fa78ca2; 0x149e7f1855161c1; 0xf6f1a53c9f4d; 0x147d9273bc1e0; 0x25ce519b4aac5; 0x12ead43c01b42ea; 0xa8138a8ec2ceb3; 0x1547cb609e940; 0x2c80f385945dfa; 0xba9ac500344180; 0x1d7f7f6a52ec28; 0x2a1b1a084c9; 0x6451a24a7ef1; 0x8f86dda9840770; 0x228507c7b2eebf8; 0x14e92d4ad0bd78; 0x15e759ff23be3cf; 0; 0; 0; 0]
    [mkw 0x476f89 0x556e4c5d0
       [0; 0; 0; 0; 0; 0x157a3148; 0xb96363ab9d7c9; 0x1b31045a4d87967; 0xe041e489f720a1; 0x2b09ac5ca232cc; 0x1dbfcf1b133cdd; 0xafe236986bc1; 0x19e5e14cd7ef9d6; 0x1100c63432e33bb; 0xe25c843647590d; 0xd55ea8ff1aa60c; 0x11d6b19fa992162; 0xddc77c9e59ae2a; 0x1cef0dc79e4dd1d; 0xdebf73433f164; 0x1978eabfbc8c3b; 0x2ce7b8824d1fdc; 0x7c943c06cdad1; 0x66bcdb24f0cf9b; 0x4edca82a08ca0c; 0x2f105be1f7d0e2; 0x22a8d213e6b0fb4; 0x287450bef612ac9; 0x370ee0d0c9209; 0x127395be627514a; 0xcc6808328c7d38; 0xbed6aabd0d4780; 0x79098f3ac65176; 0xaef3079e96155]
       0x9f4103445a07f8 0xf225ac26cf65f;
     mkw 0x14f47 0x1233c87d930
       [0; 0; 0; 0; 0; 0xabd1; 0xde7f47de573683; 0x1193bb354520b00; 0x47adbc4a652ba6; 0x3aad446476a81; 0x435f8be4acc15f; 0x14c6563226493f; 0x328a8ccfc371e2; 0x1259df7ba09c7aa; 0xe0c4e5c814c7bb; 0x3ba01775b5c245; 0xc84f29d5037c99; 0x47c922a3acb00e; 0x104d1214cb855a7; 0x375fb9e3915a88; 0x3eaee1dcfa5; 0x11b82599ea73be4; 0x1b3c4e6d955fa67; 0x18392b930138436; 0xc7a214e3936c32; 0x1172c67400b37; 0x8f89fed88d1164; 0x34b792508e8b4b; 0x176d671f8ef50a4; 0xc986de92b0449a; 0x104ce3c73f660d2; 0x81ea5fe60c55cd; 0x122253333aeeef1; 0xf98c9591bec81f; 0xf1ac8709543d2; 0x279e0d4f8b24e25; 0x139163d52acac0c; 0x802157389b69da; 0x41d8fb8369b7aa; 0x68deac4d2f7915]
       0x13d8c85a225a422 0x12c8823418aada5]).
  - vm_cast_no_check (eq_refl true).
  - repeat (apply Forall_cons; [first [exact prime_4681609 | exact prime_85831]|]); apply Forall_nil.
Qed.

(** Base 2; factors of n - 1 used: 341948486974166000522343609283189, 107361793816595537. *)
Lemma prime_115792089237316195423570985008687907852837564279074904382605163141518161494337 : prime 0xfffffffffffffffffffffffffffffffebaaedce6af48a03bbfd25e8cd0364141.
Proof.
  apply (certified 0xfffffffffffffffffffffffffffffffebaaedce6af48a03bbfd25e8cd0364141 2
    [0; 0; 0; 0; 0; 0; 0; 0x80000000000000000000000000000000a2a8918ca85bafe22016d0b997e4df60; 0x3063d1730c1db7ab5f391b5bda29c9da7f86128139bdd39b76bbcf162fde610b; 0x16c71c477d3849a9bd019b89aeeb704c771150a64c729c4698197bdaab1fad3b1; 0x39c8616cf21f9e90c688892792f2bd1a8f50c6f554a51c13a964bc793c6c867e; 0x13f489640a30f80646d7f8ce4e2fbb77f97b45dc5541e1b7bbd489fbf40f17b40; 0x970453449bb276799a212cc2146aa9ac6cf507b20ac0cd7d4e8dade5530bf824; 0x2c75ae8222fe578e6341f40f1679f154c9627dc0403b4f31b6ba7754a3b0a181; 0x612fcda20fa193c4265a173025bd293069257ed598080e5a46b79772e9bb544; 0x7fe2e6a2bc2460547c0ad2bb7292b710f56b87cdb45027985a874ec32213299e; 0x95fa878815b59bfe55276ffdd76dbe3695eb7a855296cb4a2f3bd2c30164d34a; 0x4b148dab2700dcf8e666ede1afe6daa03fb94aa45f33a6fbf9b0eafc2619150b; 0x1c4f20466fae09071f4b57b7aec6fa5fd63b239df0916a4c4581fa0ae5e9192f1; 0x7a344b323d3ed0fd512c8a04883c3cfb5e4dd085d53ec602b2f466c25f56cd96; 0x134419df70c2faa4e51edb59e26afdfe16e90e09d0f43e04cf1ce3283946aed8b; 0x13bb2e5877f566e1eeefdf70541f15c836298a1de7bc3b214481c97524b3a01fe; 0xc42106a628c9990c2213ac71e9167370e8372371d4b8149d8fa33cb7e00f8810; 0x15afe31417abcc1a9ef79ce24ebaeb59a17bb0e3324be3d8cd83e2d1b709c2d09; 0x6dbb3b1df51869f679917a10bbd492d131c0a410a522c27e409d5fcd278fb3e4; 0x28dfea0057d66b553ee013b1dbfac45789b375f10c0b99810072819c74f5e623; 0x5cd59f892318b041f2d07c45e6e8bad0af4bdeb89b874e89dd42f44b902a4afa; 0xbd6497e46662dcb1f5c20b94cf8e4e988d4b1f640c66e7fc24dbb83535cb6f9e; 0x122d260d7c5a4f8b41683c5d5d91f56263b07268dbdc9432e471edae43eec; 0xfa0330e161ed6d3422c164ada5f214178a88e571b1ec694a3e0c4e8d27e1ae51; 0xa029756f1ae0b718cf16a665413ae8b358ca11e8407e7de9c5389bc69f2fff37; 0x6c3d19a9db6e3e4f1f3212c68a5c2598e3f69ed0ec3b05b4eac70f56ab2a1727; 0x3c7ccb1620d95ffbc8b893b3694a32f9144f6dea2ec03cb4b1fe30c7b5a9942f; 0xf7a7007cbb2af9bee989527ae9cb291bb261e4454aacd7aca58d2cf6bf0b658; 0x4c94287043702033bdd696f3cb09aebc349bf63678674e030973726c522ac3c; 0x21067eb3a7be4633cb73a7ae397cc22a138f2c66fb62998e4f553eeab39c3aa9; 0x8a56ed6a5171186cf080d82dfd407a56400d62fc2a7c7d32934191ce20891e6; 0x19864e68734b4ff091b34d5119a5e00b8392c2925cdf6b20a69683554a090194; 0x1eb4b476484e4ca980129bbb1976e0c1d98e7bd6669be66e207432433b040cd67; 0x14ac608bee06424f7b9b450cf460108b15e0cd35962783ea0fa20c6e108d0f7fb; 0xd102fac8deab2e1ac52e23dca4444bdb6e2c89bc0a351ff449a6e6c279eef789; 0xd1a3c0751fc63a59324c93d53515c2e6c3f8237e574813b4b81c3e81f7fac76c; 0x8085456b19e95e2a8766c57a02d5bc2900a20aea86c16700a04ae5ddf3a6958c; 0x1c933aeb8b3af730f89dde33789e58eba9492096d60b11c073cf484e31f6b382; 0x177d5fd16a64096c504a76c1c352e1ec20d42e35b6fc85dc9bc83b065de2572b; 0x156b131c33d0bc8457f6066eb2381fcda9dcd83a50c0d02c1199f0cec93ad3f30; 0x1937120a9b4f229ccd7f30b6899c49e6d67a289757daf525cb5a42d6add1af0a3; 0x1c3b8cff708677e95c2266e4dd49ec20973d80800d60e0394c9d6a9ce024af90b; 0x19ee8c0e6b7068607c2a46f09922dd7f7890694bbb0c8aa72c571e7d930536e83; 0xfacecb5e0c1ba0efae508c21ad15d3966f7e6e00d89d54edb87c0f5a0cb79157; 0x7df31f1223ee1e5feb677efbe9e460b7c7bfb09cdf74c866b1327c2cb68f928a; 0xa83e68a7beb6dac4e59a96b4d1ee8796eadee965496536b84d4388c4a4adf54; 0xac6d30afbfcbc17fb477b94c302885cf261b16c7a7e7e0ebf33618daaa7495e2; 0x96b0453358f76b2e235f13ef18fcb35e87bfd2b89a2042435dd8a4adbddb8184; 0xa0b2e1c7fea3cc153cfdc3c68e6676a7b608cf135ff6683306cd188d97e3506; 0x19d3c08d95b7280c371dc67b3b85e62512a3ccda0fb7e52eaccc208ca24602f8; 0xa97599d84a7176668edefc95606d9688f26355ede1c9ac088bb54e55bc3096bd; 0xf8b3dab4e713f4ce89491c8000b1283cee5783cfd15683909abeb38e64e5c1a8; 0x4a02904a03a864cdbcc2992970ccd29e1b14b42dddf6acd59476137959dc7a72; 0x98914fcc963ab6127dcf4822847a554f5069c792da686fd6e0b8506407639dfc; 0x1d63795e20bec01f232d4ff65e66a70ce302f79272bfecf8b1f51f75db731f511; 0x1293c5998654a8d4dcf7a47c5ce2f09f54c2e3c9699f972d28e9e77a5f6431c2c; 0xb6300560c714dafdcd96d792929904c6426fec64ad2c7619a3bef883e0a1e525; 0xe030dc36d6fe85f681cd08e51bf79322884a3c2023b6fdd178debe6cd76aa069; 0x6a421d38078f63bf914112ab7da733cab54af3d232290f4e8380d60d0db24d3d; 0x119b21a0d43537746f7f9e017bea1a73f7d7c321ff80d9bb866916d4fb6edad; 0x9e766a173c73933370c37bff61bfdf635a6e38e257bfecdc062c834f3fbb0f; 0xd9fbbb2ed26d92584ba5330f663491b5abd890a4aabbb5a50b8932a457d9d310; 0x3b4ed4d33ee8d90804006e1c73ecdd544290b7357ab23c304b0dba149863a7b; 0xe163b777d143331facd059e6c14f070a2222eab8b41a23a8ac7c5f793ddca656; 0xb170043f4397634533aca140018b20b1c46c39ad1bbc94136d4f57e621aa9e4; 0xf5d45a7c3d2db992de989040ab9f0d411378c0aab23c4d98262ed2f747636c; 0x2f08af6fdaa10216b14064e723ac5c747d96657a918907177246b89615573e8d; 0x1650aade1bf4082ecd3954be94604771d19563a289a75efec059e7b1c777fb769; 0xa8e2fcd916cd06e87e0f73466a071892814b8e5ab8d41e928bbd0a773a538c4e; 0x190a6711b2a43302c33fa370d0edce5977cd0e4d096d69a23310adf7bd1ff941; 0x89ad6fa8286b9a83a25801bddef39d9c600a9e346eea32546ef1ba40308ffa8f; 0x6a3a462bb2b64f8a176d049f29ec860fa6b666f630176f5ccacfb179767b4aae; 0x1cd9c713b718879c4c3ded9bafafd899c299ce49f6e986681e43455270277902; 0xe1f92b61aa35cec5403b8e93ae2d5c32c499a9989a15bdb8d10c92902dcea4c7; 0x716972d15aeded8a03712dd1f783b3f42a38d8b3efe152db45fc873059850; 0xc8fe0b1ad9325209c1bf7f3d73fb9d1ad4a84ca5eb0fadace04c1c5c903622c3; 0xb4947f38a675e352a5478e1c79c351601c38ab9b119ecc8f1339f9688cb51fff; 0x1daa77c5a8c78621a02181838c15688403601d8c9b212dfcfa1b28b1da8b067f; 0x6756457060d984b357006f27c750c67e3b1111081404d205026bd505a3d3f5f4; 0x19e7943c11ce412975276022eba2c81c91064a1556ff6af45071cc1eec2e7c441; 0x17ff64c21d304c1f918d2d651b49eae8dc25febf67415f8a0878e88fa5f0a64bd; 0x112b63f92ead3daaec54ecd2b5748c1dbe039d693e2767aae37c8a51a0e02b780; 0x630dfb4abbf27da98dd3e26d42fae7a26709d716fafb9d6d8364cb44305e3d51; 0x1c94caf21c7cf78d1165ebe07de877c4864d47ca154785247714244c3ab8fcc; 0x1bc0ce18f52a48f18f9d4f79a54540efc05b665a2fbeced08d45bf84fce6c4dfa; 0x66a5d6888a0b739286b09bd8128f0f66c589f506aba4e357c9f9ad63858145db; 0x1b5f332dced4514a5ec84d0c936273a7d6c11294b140de4ef9135febf8a85931e; 0xbe7887d727d79c6f2253eea7d6566467f45db3f2adb16daef083ddf7688d2add; 0x2e6dda075d7c8b6b68d2ef88cce47331ff85dcea2a8a7e74134f70eaf5620471; 0x4178ccdba65c0e5ccdbcf68fecc73f77eededb4e87048c07fd858af71bcbbc1; 0xc141a4ac082bd3b0c7d8c67553b38a778482f534198ffafce742835cf25d8463; 0x8a9edede0c2f372266d302a7a6991ed1ae72a6151bb90b4c29128412b4b101da; 0x51fb8094f315882592d84e89e111a8211dd9c2da37c8c7fdceee4b8bee4f59d6; 0xdfea82d49756350f69c28fdb2d9341006ce06157ab1679aabc40c3ec81f37cd; 0x89abb952d510e0b4320e4f356c4f4cc8e5edfa7ab35728b67d3b5d66d67db41e; 0x8c56d4aa0bd9ca80dbe54e1fd4208df99b06bd517bd403fb7b0345b829eeb98e; 0x868d197793e0109bd40bdfdbdb3c7b14ca7ba7614fb653aa4da49f92a0b9e; 0x39aaa7077e5faf75fea4e25d081d3450885331d78859ef7f7060e55bf3bff8b; 0x1994d446870033bcabb4018894cb83aaa3cc4e8f9c3382f3053e812ccc3c9bd7; 0xb9437b23e2daa0f5601687ceb0e38e1a667b2b8fdcad3d640503359d6a1cd650; 0x7d7247b0624162cca63fa74ecf881221f22621c67f65539840daf8e3590be15f; 0x58339c94d89c0966f1aa2edc860c10468b6e544c1a17973c1a23103b215f39; 0x15613837034879f5513adbe7be9b827794e1612ef6dae6f8520cbaff0bc30930; 0x6b24e6bfc32e2a6f8dc4a3cb2ffb251186139e3405a1cd6b190ce69850703ae; 0x7309081dda95e1a01fefd04f4bdf24caede16b307d55bfcf3157bd005ecf7e5a; 0x17438615d5a99598e1f93837b48740329fc76de080ee456a1557d8a6a5ea9733; 0x7482b3b901bb7f024bd7350c4bb0be4ba1eb523a033f1c36de87bd4151882ac1; 0x19700a54e7e18420f79df6bc024572ebf09985e6151ef38793fd403423cdc; 0x1039daf8e0a94af6c07ad93e615c1ff87fb4eabab3f88244c6e5cd3eb5e2de789; 0x18d28c5338f1ec7277adf664e67ef153a3cedec7b142ec85f243e40a5ec594ae2; 0x14d8ed5fb75555ead21e862bb6e12287682d53e2cb05d122ea392b658c393c1f7; 0x2f28684b5f1248e89df4bc031e4d4f9243be3f033d1ea8ccd1aa1e2415270ae0; 0x57fcf3fa091e9eaf49c1d90b241c6689b80275e068ac9c5b4eeda3039e9a2f9f; 0x2b3682145e99de0bbab6aa02175332b6b80e7a765987f8dfe2af15571cf2f02b; 0x1a5049b48c53ef71a66fe0ac4fd356b557560eafc022755491db9b13eb834d12c; 0x134e0142d5cbc749ec308c25e2f161ff37f5db4ba45ebc0a444918aeda692957; 0x392115937201bb1f18c29246a7d77e75c9e123ec0940374c552b8329dc1fbc43; 0x582ce5c79bf83d29a7155a6f52564b162b79e4dd5679116c66252241cc7931e3; 0x73c0e8377df31cea2e1de4fc38335817f90440dac8636b59384366945ae4e5ba; 0x3472b1806ff81d0bf1b75e10c1185361b26c134e05d72d8ec7a602a70da9ad9; 0x44531bd1060cc54149588cbc1def6db1bc6e321891dda10e9ad980b640828dd; 0x3677ff060ffb230cbf9e025c688a5eca09c6dea1437f67350ecf79290fb8f667; 0x10bb757c4fb4189ce8f76e1fe9dbad1323fe95fd5c54847c8af2bbaa069e84; 0x7c57d3e718037e937bf1210cd1506c20ea54848dca761ce8fc5edba0f2b527a4; 0x1c520835059e7fac6f2328f7a13a8eb5f5c9c879952d5030c4e474af0b4addeb2; 0x1b47f24d3055a4a3006ada550036ac488f222c3f885491f75aae072f64621c5d0; 0x107c9c37e0440dae0820b11fda23dccd27f5bf7eee1e347fc6c12aebd7693be9; 0x101e36c67c6bc284a40e8b5a68d5d37ea5a5ae8555b82ef5a879dcadeb515a914; 0x2017562bb3219eb8a9ff748c4265d2a1c11753e24e5add0cfe1009d488a30c5; 0xa3d4c44e0858acac6fd1a3852b6f8155b32e81b8d34c55cdf4124b668b96e9e8; 0xcec2481c707b38d90bece72ea3076315b1123f147fb83309f5cf13de9c53d7d; 0x4ffcba5481d08299a26f032164bb1995ff6c8954a94f3494eb86ba9d13360233; 0x58d6b6ddadd60bba56d96197c72c755a6f6c9ff3851c205fd722e6e76d0ddd; 0x47feffcf18a112d647204ad710a21ef3a9f32c5b26a7c5650aeba648c0c5ee8; 0x1a62b5935ea6d7bc144cda382edee75b601a89ccfce6573d24595e1eb4ea72b23; 0x19da1aabceb6f93154dbf17e46d56a64f76057f6e0ad92ea0845f40c4b8097f76; 0x97fe81896ee8f54721ad578031f28d7c40df38cbf0697a52726be819575160f7; 0x1ab5a0d44ba58a23503c90b0973ddf573f8c8ce854b085e00e04c32c8336106e2; 0xbd25523a83af1374976857ea6e5c992700f2f55f0417b204ab42a8bdf426b3b6; 0xd215f58554082f2fbcf1b312e49fbee326958cdcb04ea5caa42a233d932e7e4e; 0xe399b063133a47f7d1b4444f051e2a079803b920e14b402b461563cfca69d65e; 0x7a20327f8fee5b7e96c97b80a12d3122c230914aae8bdb07452711ce4abae93b; 0x1cf6266352828c97a8565d7a0583d80c822d806e1a751fe71dab2898c40b68006; 0xbc2e6e43c7a62424242eb02e074e12f7f6b8d922742e22a20ae2f63d0a638b; 0x5ea60b4387b24db308fa8463a57ef84383a1326a2993bb6520f1cdab829cccf5; 0xd4895b593528e6ac0d93cd98da7d014bb7deec0f8eddf2d951058c66b17b1bfc; 0x69b41ba99d2dc0b46c3b76eff92bac2775bd068ff67585c07e1e0bceb712c0b3; 0xa13bdace8aea833af4d69683b249a35fd5c730195494bff3a858ef19930fb606; 0xe2677bd002e4ec70d83e6d171b469f6a78fbd34304696d5080f58460af2c9391; 0x150a730edc48eb526c67eacd79bc998280a501bbb5798a5eb98837b753d3377; 0x7fb969ad56214ef5ebaf7fae70044d97ac5f1b39e8158cfc45792ca802e12b5b; 0x34b56d1a5c7703b339f4884906604577051996f3eb09b4331f7399f3e5d5ca08; 0x11f37f9084d7a0f619aabed130d3eb15d714c9d991b2fd0b7258e47e3d1f73ed; 0x39d66c70fd4a441e18d6862e4e575117cee2fcfaa2fffa833a272fa71d4888ac; 0x9166fabf5c84a2c87f850aa8cf6dc17d1fc1b2868b9ef342bcb2bf121768c665; 0x9982526f2a31a659894dd7417eb9d688b6574674af385a41efe66727ad225ea; 0x104b23aba5237b045d8820efc17a280c2acfa292fa683cb5d8af3800b4d6cfb3; 0x75a10fd9ba6dfd47b813f2d8e175f36379c0e939c39b911fe57da26a449d4b0a; 0x13eb48acfb10c63df2bd99f953ec5b1ce5087696b1cc1251ddb8944d60614c997; 0x10183461b45c1de6e40d3c5c407055dc6c045e1a551bede4d924430d2117e0082; 0xbe5798e21203b2e788926f814fee84e52493d02a8a28bcafeaf7b7042b5c87d; 0x38a16aca8ead22f843ba836d038fef4b3111d82ff1a870e3e7648ba7ae70486f; 0x11df75f108ab95bc8e9e4a93d39f1ee9c5d4fb6cb5c8d268a4c3b18f038d51c90; 0x49ce11a85e269af040f491c908342a805b79d6396f0837a7c4a9ee73420ab8b1; 0xdb3b06aeeae91b31a37f0e7f95c1872b5584dbe7142fcd030f05c371193e676; 0x21832bbd2046348cafd7cae6976362ee38a5eb35b97e6dbc1cae3bca4bdf4b; 0x10efc158f8bbbfa646a4b121b95a98fa8ea832588cd778a3504fe101ae8fb683; 0xafa6553f2a571a5b2448acce5926a70467033e0b1e65a9466b598a6fad0bfb12; 0x12715f76b7b8b608c3624ad71c0adf817af8d5a95e04f2c5b1b805c035a047b5; 0x10371831c93d363629435ae88ffadf8ca7e8053c9c76d05510b5b0a006cea1e8; 0x659fee19c95160034764691af1beab839a8ee5137f957434afb465f7240fe0f8; 0x1f2fa00d33b50ba0dec5dd62e4aa7d72d0958b34c3f6a35a58dc56c7a58dd154c; 0x3d96f8503cd4dcbedcf82acfc34b549018c9b13af0a57b6bfc53d2f900bab6d; 0x63fba8c8a2428c2754298e8c302eac5d0b7f06a461bc24b6c794117d577e8f; 0xaddacf1d91d8ad7299466c1099d035da66048f22d72bc7dabb1c63b2d23fbb0; 0xc6d1e02326be019fbb4f7e42d165f4b8328c1f9be8d92658020b61f4e959a4fe; 0x2a26433f5e1c744e502753c8cabbbc060bedb5cb8815bb1a28ea5bcf6ec4b5b6; 0x6dc0c2ce74abece3909c1d60ddfa1cd2416953179f0d6d9b1af2b5d38b8790a; 0x9cc3e203e99ed4b07251157b68aec2322e1c16faa3e9a4e290615f57aaa4ff7; 0x14f052c6cd69414b9d1a7036dbb5ce70d732aabf3df40648d0ae3cdbab43e8288; 0x482a79817e3a337b5b21ac21c18a599d37f0d1a56eedbe530156ccf292e11b9b; 0x5d89d20bca39f0f8c261982c0ad3e184d77cd3f81437aea73d45e83a0f4a1c1a; 0xef9e2518459b8fc06433cad3bbad69143f0948138d728ca7db265382fd331f8c; 0x1b8f9dc059251841d4dd059bebcb39125e962752fb733ad843f165776bbd89b8d; 0x1c13c338e31b6b9fa4967b45733ce7532d73d843de00c214ca9a28ac3acd18013; 0x9ee51e51505d379673f2b575b0e549a3c7a8df48a92396110eeb88b7f49486b; 0xe472df76d105f3dcf2837f9f3195e9a4d98f46b6bdd1e34c310ee01471283cf1; 0x1e494256dc76a87f0c28c49ed19e742f7a66f84f094cc85887da3b088b3904a35; 0x3690c64fff6e9df4f7b3765c57599c043a0628fb8c2f71113f305de08ecb9da; 0x848c25d5b015ef748f46a253d4ef83024e75a24f9a976ddb5f869b84959f180a; 0x7f7f20885f09e1339fabb6e43066456433bcd76a9bbda329bd986e5b60a1f424; 0x113f43ed75dffa1d33fdf8e45d358c46774219183e0862d116955048454f68e52; 0xb595d43f44311c85fc0b31c465dfa816547787e7b93ebd3edad87ef6b43c39b2; 0x37b6e2ee40237fd3edebadd95293e1b02e40c97cfb291413928080c121dfec52; 0x6ebc1d57e8c7b641f1e9f999eb95b51aa5f9961f82a737906460c6e2ce62bd5; 0x601dcecde5ea206d66b8d8b948de7cd6671264b6104a2eef88462bd804319a47; 0x96c9752eeb0c679cefd2e8761bc5457956c0d4e02b93d80978d33b4ec2b979be; 0x36a8508324a83f66d5074ea5715819c27db44a1f481f21006070cf8056287bca; 0x6834507237c4f0b549ec12e2e37c916c935333d11da2705ea572d8908f58525; 0x108012b3eadaded2a44b5186faf8d45e7e1a635c5fea2bbb8b5fbba4873f169; 0x894d5ecf9d5cd674e3df8041e35e64fac741fc66f0cff8e2bf777e8dfa33515a; 0x9abb077292285fff8d107122a532381c724635f809a3ba35d03ae19f67e64b57; 0x81a5cbd047345670834a80aa637e45f084c55d2f643e9839163cbd4ec56ee020; 0x6bc01f0d4c62e96e50679da1d6874c05540f2e0d4d08d5ac8cf02ee18ddc7adc; 0x1c787525c7f4f482354317df6634a06887517ea9b190c550fcc27ebca079819d; 0xb766694271af5a0d6a2a883177cd0317b127d1cd18bc5e89b91b7691f88b835d; 0x1c27410feb7bfb6e238c193a9a4f3c34dc3c32138739f0425b0d2b914060d7d65; 0x7f4bace9121b5570caee496d12b1c46cdcc5f1715879991c8c1046b1a1dfad37; 0x549761889bf8efd0be3c8159873605c517eee05d5faac53e9ab375c28154b8ef; 0x8e6251e20ef9966933cdfd4b6edb33da27d5dc8e700a2b25847ed06b523a811e; 0xb358ce1dc23323d6273006e561ccad61a01db93260eddf8b65012841fc193f23; 0x6ce3d310f9cf33bb80ea120efc7696ff2b86ae32d4f3f38056ae75d6c07a4acd; 0x1e8b84ac2105510a9dab6cc673ba4fe7e0b57b5abc4601f831cdae8efff68737; 0xa89e694b162f21cc2f8ec87086741b28cb89fb0117390fa599358998ddad6ea; 0xd44d261a6084a133f1b00b07e34e674d301720cbc2061991b169383f30186f03; 0xca1a75b7934d675a73406d092a03b77103e45f24553bcdccaa30b5839464b93; 0xb464d152eabe4965f40c8b4d3451bcf20b3f5d0724435479f4dd23ce85337fe7; 0xfade63b877de97f7444544f217adea96564ea7cb4fad43e5d2f65a02f9ba79; 0xab06db509b66f4eecebd9f0617a06bc0c8f913c4dfe3cde61ba0d10b143d79ec; 0x1b7d99e798f31b63e0df94d2416c7d9b0979e4ca6695c81c55f14b88ea3d848f; 0x11fae0e884b6cb219287ebef6265a301ee193b0fabc279b69653facb7a873535a; 0x75d7d73666f1ba6101917121788482e1737b20336c6dc3ebb99d597f7292290f; 0x28fbaff9dc0fd8c43c834cb96d512409ac98c5239ff48b4c0ddd0e2598dc53dd; 0x72cb98a5579588a2de6fa6d231586ea02028e62d107eca928888e09cc57c3ebf; 0xc881d3921c1eff18242922eaf8f9c44a43f869824cc8448442530ff32d9b3c3; 0xc284d9fbfdc7c0f66eb2f334b7db527e5bbffb70e11cc4c56972f2d3df8285de; 0xd381e9ce782480712820225439626df411a8907558a9095ee66dc8272b6e6bc6; 0x1b35e7df34133344d62d5b554219d37a70dc247cc66df1a8dcd72c935700e3ce5; 0x80fa973ab9cf270dc2985e90cb808b7dbc840b7b9a02558c3c4ac0790e596c24; 0x13d9a6214d1f94ac235363ea57a30e2f4fb0f15d2a96f661570b6f6c5fe58345; 0x34bd4607a8e3a7988b146ada313067b696d99e931c0da5fb9b2a6700a763ba8; 0x6511924576fc520c697c4687a9e973dc6f8ce276c7a5486683e614be098a3c7; 0xd23db6e26d22eb124223f10576a4aa225ea464eb4796ee36c375a0ec68c5df2b; 0xc8b76fc78b580f57da008c18cf2895da0ffd6a02a1ede2b5f9faa9d3e4f304c8; 0x10ea335c72c54024c8204faa378ac6ab126c4eefcc6ebd06957371082ed6a8a89; 0x1238c5dc17244af868d7dc16ed78fa0a5d505b62723ddb3dc698b8e087008ecd; 0xc19f6540988df665cab212dc258155d3b876d8c975d4dcd27a7778c611bfdfc3; 0x47e1d5e7569aa480e02f8fd5e7b225fc3535c85e697e71d3089e4ff1575b665; 0xd64c35528a6184afe17915b2834aa39aaccc5a41dcf75f1d605ad2febddf2968; 0x8f6708f51167c4907358b4efcb82c7f0ff1f50bc027310cc71b1ab19aa92a4a0; 0xa987aa37c67a63912e403d778aeb21627cb94ae5a4059e4398a48107f603e7d; 0x1e178107a1eb610e0e38aff3e8317787ed559846d5924d979c14cdbb06b22219; 0x137d5961b80f97e9226856485dfb0c7b5f66e8acd20cb6af73393b9a70c33f; 0; 0; 0; 0; 0; 0]
    [mkw 0x10dbff26eab8198050172ee03275 0xf2f3791ee0acbee706e9408c5f0cf13469440
       [0; 0; 0; 0; 0; 0; 0; 0x2000000000000000000000000000000028aa24632a16ebf88805b42e65; 0x1e53b5d09aa5083f4f3b18805fa24668592811f6fb7aaac9ec54d07202c6594d7; 0x1652c014841b85ffdc0e2a92483f354e409e71752692eb8b720129f3af1761f2b; 0x19d43705ced4927dee0b97ee98e8543637673cac1e71812593c59f571c9c0add8; 0x8c4e23915a8f2b8caa63265c6320f47b595d58e6080098028f20a562bbb697b6; 0x3d34475db2e669b4504f51e450a816ddf9b9dd2ad3afde06fc96f967fc3c5f; 0x6486e427388fb35ec165cb7a427b3861f697d90fb8a6bceb26bbd05726f75855; 0x8ef8391c4f1a70b739b82da81e98fd586020816b729cf704962c4d58955917e8; 0x667b826c1759d0ddb8a11a3de7c1832bc8abf603064698ee91c5895387126fa6; 0xb3c78abbb276e421fafa23f81909cc6064e5cdf658cfa7c9c7af5d3c70e458; 0x7ef220eb359ae3101a1ef98573d784e6ee543465bb7445a19116fe406bcb3710; 0x3ea135b2f1a5b8bbcd48b132bfb0244c1509fb537a7dc77e72601efffe5cbdfa; 0xdfcc0e055445cb2bbb4484482323eaaf339a69ac0daa5c299776b2ce94a39c6d; 0x743e557c07bd9a7da26031ec6f28b5f58c22d72f127fa3d14457d4703171548d; 0x5ca254d405347f75d3879e1a32b8da13b990f9ce8f8ac113c61dfffe029f9138; 0x187f193a3f15d858ac1747d92a79a4088741d730a4e1bf880ef57afcc0ed221d; 0x72686fc2a2db461d3d9cc23ba2ab15074adcbc852482a4630aa66b87f57510cb; 0x24e2b0d895e60ce0a44471b004d3d706c5049fc953935c0a321d812f6a16420f; 0x74b7f2ff32722cc178533c6796d1abd47e14954a14050d9148aac2eff10a421c; 0x1bea748ad84493aa03c5a693b3b070419275143f1814b7e483ad23448a86a8d; 0x9d29b47dacbfdd19b1631dd467ec7ed477e40808425e05ad28c6dc0ef3c6e8c9; 0x1079df50a7babd0ff7ffeb7288948865e67a8f5573607c613562337fc4306a222; 0x14c7a2359dea16f11bea7482b4ebc13292134b93e776cd80a235e9ecb287a9610; 0x26745df845b921c468af67c5e9ae4eefd61a94bdaaef9fcf801110c67caa49b7; 0x204712fef7afd38d98053167108ad7ea4f7ed95c0eb95c596ad28127ef76bc7; 0x60b82752efd3878ffd2612519257c51bc6351a38fc31b481081ec452735e5303; 0x5a878a7391ebe5736a0f59c93a78ede49e09ecb326693e0a60f0f7c3f047fcf1; 0x8af493c6d76c89496f9c50be567f7272a885e9bc2fb06d14f8b16265e4a1e0a9; 0x811a867c5c591c02dc4b319a0265a28c4d47789b36cb4aa5077864ef27cde723; 0xf0b57a3704a3bea82ef6ed3a3baecbe44c62fccc374632a9f2a2fa508d51321; 0x35fa092a32f7343e32f8836b38d5cce1e8248f6cd2c152f6e765810e6650a981; 0xbf971ec770cd17646da956d2b667e74c0239e9a71948125567b52faeabf5b573; 0x1ef4858363424734b438b073bc8eb13607e9e7ad0fd46f6962ec9dc64fbe67b2; 0xf26935d361f803581441ec466aa0253765af24ec6befa282a2406ca72ab58e31; 0x15251b0b8afb1f9317fad69a0765778d65e36900dfec62f67362f2b3e5608ea6e; 0x5a675f073ee348b90385892f891a85bc3c2971a2d122c37a281e7d2600903ada; 0xfc0b966acce0d50e2c9e22442d7fe2d7f895b13bda5212eeb660d1e209114fab; 0x1aee38aecdd66b21307aa7f0f17890d899e480a764f503f87e6874753754b2697; 0xc8ab4bf7ecb916b166eb67683acfd88015df5a06bcf00616e4682acacfdfe74c; 0x21a2fc558395e731dc7996bdd5cb241af90661384b7f500036a3d88ba9825396; 0x260375f72417915ea78bfe1320668a2e92c2e121227b26304d47894c1e05b1; 0x26938e54193adf749af2b1ca3e0c01d8dc3a3bf3eba5507e73c8be64dd60e8a8; 0x3f5208ac29bee92d4dc54dcfaa9f4a8b4b1831a54102389c9f84c0a5dc91e9a; 0x4b277374f11763b388de4a98f2b4525115d5c5a4c39194f33107cadadb0ac8aa; 0x1fbf43210b11de498bea0fcbfdb4f202c4ca90ea6f21499f2f1b66e2550f26bb; 0x1109f78fd0b36eb4d3e269906dda09b2706736af970b3bbcc236dd4d3be57eb21; 0x15aa18dceaf19a9fdc20a17d5f599653588e0cf1d54249c6f1c04c47659dc231d; 0xaa306734ea20e6b6976fbc65d644099a31e27d49401b986b1d7877c5087b965; 0x151db1a682deab5e0679e31132b56593ee9539bcf476faeffe38d14571344373; 0x1be9e0dc1b9cb739c341794c2c01cc2a962ddc55279ff243b2ab35dd0ef7e61f1; 0x398a3a0161b921f88c3e6b9997954f814f8107dc0e1a6213766533a621bc953; 0x738dd58d17c43499d867f75d30ee63190785aee5332cacf39379f9e49bfc0172; 0x88f239cffe436ef3c76555ed67e7ec8df5e8dff026c610f90ee41eaa435a088b; 0x14b85d3c69b06e3e436a1f0b306c406e8cc8b7bbfde350e5ab00b928b67fa7a2; 0x7873e123877a937e648994bf0f8bcb4635f69720d9e174f8c18e47416b491b50; 0x6402e6ebb188e58dc0e5d5f2cd3f4e651f70e2c269f2c4805f0bd74da80fec8f; 0xe06c2e7859d685daa1ee586e87e71c80c369caa1eb2d7b0d2fd05d041d04aa5; 0x35288216b5788e9182ac906ea8310d0e36fc7aa481239113d6deeeefc017066b; 0x96402a47f89d66a48ceb66f1fa7600ba266533782df820fe8767af5b8904eac; 0x9b6ec1043769a40a42cd48a65fa64fc1ec48bd92704e8db6ef906b973045ba95; 0xbaf44b61a2a43a4f1c99d1de6cf32bcd6434d4a3dd13e6ac43f33b19205f6e4c; 0xa3fd6cb4e9ac7fdee2be19888bf73b5a0f71a50d28699a53b3dc2420a3ce20d1; 0x1a60abef33eb2f0bf3b822e9758e0790384044e52d41bd621db7737c493c356dd; 0x26b3b4808f21279d095aa5ba272d77bcc41751305598288965e74d3b5bdfc807; 0x9585815244337cd68f43e7226425ade72d726380fe5a45b193dd93c88e2ec20; 0x1ea91a11a698e65dfddb5e9c58d16c360f96332cb708ba8a057536be67adebf14; 0xf676cb6effeb33ecdd5c86260c1ce5525c6dd8638c03fd937ea4c95eb1925900; 0xf258fbe4f28cf01e815e851d3b051d864b300060bd9a3d5790a0c0969438acc6; 0x8f78ef2155ce32612001e2aad3a3112ef76c75469e268d533a49f712c72dbffe; 0x1981063e302f62770d1744e9cbf2567eb0d897951417f0ee2a5bc741d7aa4221; 0x2b69b25458a75439b3548904b85fe687e0d7ed325806a5b93fb35d0e38dd79ed; 0x92592187e114dcb2b40c5f6bc07d8b8cdc828c43c950b82c218d6d50fd61f7f9; 0x242c8be1c6101ad042e490745dd445b793868188ff1b384feafef814d11a0d98; 0x2e8ff7da3989627f9bf8a8e80a7eab911dea0ab3ad032f5bda56742dee5c61d9; 0x130436ce275eaf5d33ebc1e5a0dbdf77abac346a2e4f72d805502142445d95d6; 0x24b0ba70f896703e246982ad0749ef825cd672746c8d05b805a9e94c459fd762; 0x20fd5467241c7e49da3a18b88f4a7c1dd782f8fa408d65a8658839e3bf3ca135; 0x952cb63226988c1e1759ba003a3059c8b6146211c549a85c7fe42909b73d027; 0x3d1fb77feedb3f4e841780c542fb6a2be84e39f9d507aca776ba72a9f11ae05e; 0xfd6f90a0b28b07ebc864ea84e0d0ad62aed4662dd48a64be316f696f64c1a9; 0xd4c4765e0f1273dca2e4b5fbf13341dda4e46729cd9886fcd7cd99d7e6527b5a; 0x49c3d3c95220a32a2e21ba05eb3da38bbd0d795f6958113ab91da99950f5830e; 0x362393639073733ad48213cf04ca049517b500e5e40313d75aa04f75b657790f; 0x5f2466da84d82c055ced0b628c56e8bd87270cc112a6a71a19955c4b312dfb83; 0x364e6dc681858775dba010ad36e9e12980240d5236ea54fcb0b3edf04c2ab24e; 0x3b20e08b14c5e8f9789cef440fa3ce16f97693baac73a9f5da3592fd7c2de47c; 0x191e41ee33130b36456d09489cd47c042292c352c30ebe4c7d5ef9acc3ac4c81; 0xfb2006927a564ab3e7fae12bebda50cead3d7e4c33ccf80fed0e6dce0e521729; 0x3bc70caccd751f2458e965e2ce71e0ad453d51068d7f46294efffb499e5494f; 0x4dee730a4b5aa244606d70cac3668fedd28a2b7cd618996fe55b5b7df86602b; 0x6ea1a1c8898e023592634f7c05c623f713b4f52ea8d649f00298dcf6b5a0e30a; 0x1422f449c1607e29c39b24fcb145ccee0e062d42c630f771a9ca8ecd122c8dd76; 0x1bc19b36748b9e930ca66050af8ea48f640d7195217ce1eb6b6af36f6c23f837; 0x16f69b138b80e3e654798ff540dc90645ab3765dc8980d54e09698b5e8fbaecfc; 0x24d226b8fa701ad459495891945296e9b08dd6a076ffdb33a41769505ebd1bcd; 0x12f643e97e944cf7f73066705172f5c79fc2019ffdd11acbc249d7dc2d884060b; 0x1fc9813889459bc5a9dac49dd15da8099c78e6a30a5bd1fc92c204636413f2; 0x65066fb2896cf2bbfc403b2f5aee43a0251d5302248ff9e18ba82693b87fde2f; 0xadf6e9bd4de31b6abab1f07845485e0ed6db46f5a7b5bcb5714d5084caf5ea83; 0xa1a1075ace29dd0d047e2d30cd97cddb7cdcbf939ff9d019339dc624ac61b044; 0xb75c8b03cd82bd7f8dda1b03084ace0db3ccfc858dedf771f637093f1ce4e1cc; 0xdfb9c9fca01af4bda910c759a8bc1021107c9b2de52fb443a2dc14beb04709f9; 0x7165711251235bd293463346db22816a741e515c6bb116beb7759c02214d8636; 0xd66b0eb93df59b885c9e3c89e64511d9432ac82e1f417034ba9c0ad8e882433c; 0x107bbb3cde73ce46a686b400c7867a127403cdd7a4c32a3373243242f2e35833b; 0x162b7a51c7a0a06f07b7bd74194c488b5772b9bf058019c64fa68d91213e695c9; 0x2dce6cf123497df5d0b75c83a2b1ea96bee796beba0cced2c5972e76c5cb6f04; 0x3ca81547f6a76ab657403428ab8210dc14ef40f38d5d7f55c49de5187b01b7e6; 0xa0b5657b4edc70247158d76db9bb19f636234528ca22c838b25c4d347d36c5bf; 0x6eff8f607dfc5d1d43e2279c1de78813c4afaa494033325605bf6118667441a2; 0x2bff97530aff161469f245f6782fd9c5608c2b9ba5e2d6f65f79eed757187f3; 0xb7a109462790ef52229b2914f761e519cce47c08ffed65615fbfbc1e886acf0d; 0x4ce09f04460f581f10004bda1f30627e2b3e1f89b2f010acc237b190f892f47c; 0xc7268ca4acf5571b238fcf5729b32fd99ddf470b1b518c4a85e26c9fd25e9cd2; 0xd74269a50b6474fc078ac0d774f1a853ccaaba170813debc90c3c4151371d36; 0x3dcf8f15a26edd3ad9b51b63fa0be8a011505e043c7fb6590d0c9c36e21af20f; 0x8da35513c9b00800688217df8a740505b017a0bfd0854111383a0db0385640cc; 0x152feff42f4c2872ba21b4d6efb47793dbc63bd1a8a891b77ab0dfc92ce2065fd; 0x73daa619acf178c67cc1ab00e2e04010eff61f43384e03d87169e6390040a076; 0xb9b33ea0f1e8c5ad24fc6bef014c0f239382c20213db4e7a4cd66ff0221d0c21; 0xb18486c88b5a1ef8ef493752dba4b61b4949fdfe61d95b18cdc8ca588e960c1; 0x187211edfbb348b7f34a0626acc4fa19ce85222689d2794221a5bc52b88b0715f; 0x15918eb0626c997ebc7b233fd9c14b3b6461de549f5fe279da22f2032b093c71f; 0x2c2caf5e9162da08c8358f82c10bce58ed218b646c17d46ffdfc9ca52dbf78a4; 0x1ee701d37470861625560b246d3db01b7a436c62c10861aa79e2de51b165d6f; 0x4b4ffb01a9c7d5adff94fdf48fc587f92d999fa7992a4dfa604bed4969cf3027; 0x10b0a0aa9a775646af2131ddafcdc57dc6871155ac3e9b6cb2b4562c30e5119e; 0x1ff4981d55aa1cbf96e5255090121c0979c8f2822c58addc758059e80af8bf925; 0x44ccb7aadf9311328580128609093d8eab282aa6787dba157626fe1240a83a7a; 0x19055158053f62625f08ca22b8bca6cb8703019611c357803f031b2fbd5c6d6; 0x9c7d7089cd4b89f5b5bfa4b7c309824ba1530bde451d24a9f8a6b8747daf30d9; 0x6ac8d989d021a38b9faf0596791cbbb3303cc61a40d7ac80de962c497193c472; 0xc5dff348549a06040cc07e27bc0dac1db2b60ba783fc251682bd481db0fe37e6; 0x15a531c943f7896f3476be58fa45378c5ba1c7b9f44f440da65d9632665daa21f; 0x36521aa6572ce62d23550787a299db570b7d35304c00e10b4630ff514d18d4f; 0x543a68bba4689eab60041032fb79a83312822286279e57afba1e9ccdbdb33868; 0x3dbc594cbb44ca572ac7b118a67ca7c67a90e8563d67a34db2c4e863bef40e9d; 0xbbd1ad9ced3d39b789574b97a5827db7201f8c9f0a8eac77f7f854ac03c781b; 0x7a87891d91a5537b22051933c44dc4b4c3b38881e2263f991b489b86992b87; 0x483d4651c39e06e4ece7eaa0ed7912a3440650e442b2eb8078523c33cf319c67]
       0x7e44a52d4b46b005ca417d91243e86645b66fffd04cce22537827794f1dcf541 0x5e7bb86e5fdf5478542d5d10c793b0952af41b8a9baf728d11ec83bb8b3e6320;
     mkw 0x17d6cfb8ee30c51 0xabd18a4164f2ec2b49fc50cdb7e270542f2560a0f700ae1d40
       [0; 0; 0; 0; 0; 0; 0; 0x8000000000000000000000; 0xceb38e6ac0e34de2f34bfaf22de683e39e0d30c8f2b8; 0x16e137cd6ece6f4a639375137f8b7aa64b18208198c04062648c1398451fe09; 0x1cedaa954fb09607089b36dc31a338efb920c63b40f5092deeba3bc611f8f50fe; 0x2b99fbd491cce6a3a7e5e7cff855936f4ea5769a716c475885aba6f795861cd7; 0xfbda48dacc1befb3eb628c8be690ff08f5af578192f881cbb12cbef416f751bb; 0xa504344d22959613b7828791b0b402540b0ca310fdbc3ea37be7b5c97e447264; 0x11ff07b4520b825999c0cfa1d7f224af1c07d9c1160346d038c0c2c41382bb0b5; 0x1a1e1e93c56fb9c5866e5933dd5477a903a1c00bbb0ea260da2dcb0a4619bd4cb; 0xed03190846731ef9263efef328e83b2c4ff8cee40341e975c44175b2ae318f50; 0x58eec16edd126756241d7b1171bdbca42137bf8c201b687996b79e6a7723d97; 0x8c82b46857521fd5174b9d6cc85bd3889d4a8c961c54193c164037d1b7a8d55; 0xaec29462eba37abbe7301d0f8f6d9ed062610100d9176afbcf0a283b15466726; 0x409c04129b1612a8c446856a46e47c45fbef1730f29969a9e8df9569a0f0919e; 0xac9a7597b5080ed593aa347631c724011dab6da32e3d2293172345bbcf57babc; 0x55ddc9d6e66a9be5006c38a49d2409336a6050766e80c251eb65024b3b0b9f9d; 0xa42adbd0a09e6a054b959b738d87c612751ae29ceb021ec2c9074104ab450f48; 0x1171486eda91bb77f6f9065efbdda5635b4291e85623ccc87aebd99e11f7c729; 0x459e05a9d2956ad169e256c4130d7296ea5d35af5571f8f4d54360d2db0804dc; 0x3506520b54e5581b905260be4779b91877000a0648cf421807c737801919bd24; 0xd0f09ad0fcd3e5b74133ab07160727f234e5c3dd17d1ba04297fb52aded6a31d; 0xcd59a094850b15bf726269969dbe5a4e495aa358a80fef3e9c0c8afcd965e62a; 0x89990c594a00213941634e488092c76f2613ef693cc5552f034081b9f34c1bf0; 0x846eabbd7d1a5dd14c4c8dc604cee348059d7674c8f9a5b24e74e7787a5e688a; 0xdbc3b81d56165aa92a9dbe05d2d5bf5bfbe4d76c985e1771104f4cd418664cc4; 0x17c9f38ec67b3272f932ad67cff2989eafac354593266e888c1db00a4f6999d39; 0x52aec7fe9d73ed1d1b2e67abe8f54160e520f53dc0d74aa6cd079e4ac4d0e36d; 0xef8e393b3c645ac05a26587ad0ab8d6e6cf8bcc6a6c55bad40437c28f6ad38a; 0x1ec9416f9ace3e5d88e20cdc463f617d9be3b95cd84cd2704265133f953ae55; 0x247d22cec01181e1e62d7cf3ad2df91f286fe1399e44e4371f28eec56b8614ed; 0x9dc55af74a60190e72a5f4b3b74e8c57e012a772c111a22040d2dbf56fc80d83; 0x76135a1236836ac0f91afa27bec4a3ad30e1d4efe431bdbc664454ceea81ca68; 0x5cafea6ad1aebd01236c0ce107f98a557b281e2a654d71a213ca2aaf3507a9b7; 0xa28c2f41f5c2cefd83e0eabd9da2230744f87a8d57b8b162b8f017ea13eec4bb; 0x1c6c5f721b43e3c45964678cad85815c1c1ff6965c6cfe2a15b2bb4cb6fc8182; 0x43bbdfb179d5e8edf2db050a9464431bc18f42282a8d95afd6a53af022ca5b5e; 0xeb2bcb07d256b4108ff98da265eef62cd1d2b8feebfc5dd0a0eff62205e12466; 0x18d66606c8f46310a4f59767d5d185fee6cac84c05d2473dfffe614d44c6875; 0x5b54f6335e5f4daef38cbb6846207c4fc93b195844f8245052434a845a3a551a; 0x598cf1ef97cbcd856e3b5d33fe024325725b2fc3acb0b8eb65e7ee4eda3f6078; 0x10e302876c178b5bd37d97a0eb1dc2b8ba8dcae10e415f441912ba480f598a534; 0x22ea8e8661540f17c90816ad33565cc0c4b589657c7f588829093c3e9d76847e; 0x527bd1fc4f4d34f7570e015d2ef59f975892508bf716654d1356e67f18887568; 0xbd91b2ced3f2708a9ea7be7d8d6528eef2a1c277e4cc0d08c41aed9479e38a9a; 0x18d23ef2ca735ec62841486a2222f5ae908128cb60c9efcd5512e6d0e182412a3; 0x6a4a19fd11728d364402307a75fa839870b6ce50a9fb94fea34ef3f499622bd; 0xd75284b21837ed3a3ee2bf8dd5fecb0e756369f9ba14440edc3c5fc3ae2d8b6c; 0x45dda0bc3c7ab1c203d152485fc3a25986d50b3780f05f06eeb51193f58034f3; 0x9e9d872b2246baacab25f650220f9cee01eeb779b1aa14a7a14e4fd11cbfec04; 0x2e536f3f483d16b986ed90d978937b16ce382191c482f0c68c9995b2d10cd8fa; 0x1f02d8fd2143945d32984fe5619d8058114aa34ececf63c7fe08a99acccd5e00a; 0xc0fb4c8e74a61958e989f1e83e2162f1d9f07851e22d7425fb88930bd72e6314; 0x14596616d4fa9e54411c66433a621636462e03a94631319b7b22ff1767fc7c3; 0xcfe5d0767a0391a612c404671874e1f0dc686cc1172020a00d6dade7db3f60e; 0x52ac557987bf2612451fc997917eaeb7a86ec90746e961fa84a9dc4f303e2249; 0x3a7958c886e2823a381f8d6fb6f5209632496c07df9841ff9f31096c68eec14; 0x8a686aa0e56c91b0eff425af3559d2ef616fa03c9df0c2c31314d1f7c9511849; 0x1a210a80032b9639df998794f5589a40683d8f580bbdb27eb60467d0fcc43f0cd; 0xae332260c5fa7034cd9d5632020f6cfe1f870a004f1ea88eafd1751dd26609e; 0xd1e1f96c6dc4fbd7da617b6658cf7903d5e8c8cbe7fed9254d26411fb97a49c; 0x6f2faa17411af58d752f27ce0f7dfd033ec575ed30eedd48b710547ac8934338; 0xad3c3a86ea95e4e433b49161d8c6a4848eba7fd994af74beb1da915a5daf; 0x227d6b80362ad2805c9f408e374d0bc99d4e041851c9c1f1d88dcf7f4910b293; 0x15613f6e47fa7112ce5c685fbf981c1bae336f7ca8f418590277a11e79e3bf9ca; 0x98333847b13e9d687da4a64a652e1738ea4c0c222ff1e7b07ba2425da2f9fb; 0x1a741db96fe44c1d47d2cb839332821d082779aa4fbabad88182380996b74ea92; 0x293b6a7e748fd858d664413619f082e07f369c11f8abe1fda06707f2ba95c551; 0x13a3502902848ef09292690121701a17ed72f8531ef53b6c6742306e119a6b53d; 0x1939a2ff125fe793bb5c0a6b4a79f3c72f291e335168187eeef625c39c4b8a306; 0xc9679bdeb46479ddff2bb6e62ce228a865bc45692cea51eb00b70047c08843b; 0xb80dabc80fc1687ff8813b0f67c4683fa4d13d1b546ce7c64a719e8eab0d2b7c; 0x4bcae8d1e2ad54c64f58bfe1a98327417ee346cb0156c926dd20ed073e9b605f; 0x45da198252cc8a6f9323d3408caeda922cece105e8085afaeb263a6cd3276288; 0xe6d9ecfcfd8a413836361cc1e51e45d42923db91f4dc40f56d7f2f65bffdd1a; 0x1e090a09476fb9efd86550f77209139efb571c8877d3089df10bf526f69b737d; 0x4355e59956ab7e34446433acc043bd9a8b84dcdb1cb3f1e2cbf13847385be10; 0x53ab8eaa58dfb9635163a4b0ad3d875905b766799d74ac2ebbecce9634a6502a; 0x1097087fd94f3f9b04faa3e72b24782daff15d3e10f3455b2e28f6d58283dbf6; 0xd2472e0431f462fade117f9ae24694e6a6ece6a56beb7412fd75301af9951b0e; 0xd8b737d3960fdec135f76a268efa3a4c6487d094f6db4cbd87d351ee2c862473; 0x36844ca4db8581afd43c4458ea3bcdd341e51097de652550facf38a9779f730; 0x11ac8442aea10f2c7ff7b91e3a1f99d312f699eb314f28f1fcd356e48f31b5484; 0x4092e45fdbe909f606b67b176dcb1d729a1aca23a7d987bb6b1872543ab978a; 0x78b242c2673d356381099927061f9d37f0b29a9c471eaa05e09340712b1ca9b9; 0xe673e2e4f40ab893d7706f8443ecafdd4ff46040143b74f61d3597f6139881bd; 0x109c330da61747c2ff6153a0684b5bfb6c69164c05c724d3d414384a00066e0b3; 0x2fcb4d63a1a3cc7f4e7ad83b8df36ee93e85d6de5fc607dd57b9e3c75f88b1dd; 0x211d2bcc27a768f3ba69dae10890e3b9bbadaae72f72e02565ce56b75357cc9; 0x1b612c40413227aaa51fa775b1fb032d788d5cb7e1e479c1d63096731e019a3e5; 0xc6cfc0d3b1c9d723f47f1b0ed2a228b59c13652996dd2246ac815cfd307ecb4; 0x577e60553f9b96ecbf07e7454a99b28ba12c80e04027065bd6fc543c0ce801e0; 0x3cb100feffeade44c155203660b3f4fb7d33d2981a4d1c8a26c4601c5e85c18b; 0x42f5e113f17cf8f4a7e1576b53a171030556149ac62f75e3cca57514b26d631f; 0x1382a8636f559d268e88c3d3693fd9cae511cc424b2f184646f483b043dd339f; 0x1e60b02524d79d48514d935f990f4cf21309f36ced22f948198242e89daf47; 0x2a12cb190020fc9881609f1531803f9983726519ceac6dd88a68accb20ef9799; 0x1be0760d806f288804fff3eb6dd46302f364f4cc3ed4e53cf1a762dfb6bf74911; 0x8868eb05c39592001f3bb9f3f002ebf70f52b56a519b922a1710a517febb20d; 0xfed9c15c0c591ae5b9b5219c9b7c0e5d9c91c5f538f1178362e90862485f2331; 0x30d54b076e4341c553e429609b9b0340f1756108a4899c7a6da2f2ddfb0a1efb; 0xf9a953b2d7e27752b905e05c1c292028be40663205f1ef10dc28892ef4042530; 0x632811f7544353aee1b30431bc9b44f888b31eec736cb526c91255bd033fc909; 0x8ca2b10db7a0af7191aea08917171a4d29c6dd72cc0be236ad891cb3591753; 0xe97a42fe787a064a9ea91b2d74f386d465cf412067a6b23699baec3bd1536ed7; 0xdf8cede4736d66966a1cae0d5029b55a96274aafdabb041f550378840d1210d9; 0x9a3fa465d69307c2cfcd32b7a0afbd03cfb486d175864e0c09df6cc08a063586; 0x17c552ee48c5961f3966fd72ac1824fb12888a80fc4d02518672f541dae38e215; 0x19e9e507df1825a91cd29af60274adab46b3b8e3c5779849ec9a0ecb8dee4dafb; 0x2b8cd6cf18a772ec2efa2edf313eda66315bc778d8d0deef3ff66610b490deb; 0x984b6c3ab851c65322dc5d6009877cb539b39437d482ea236f0cb1d2c8c82036; 0xf07d871f781b1fcc7ee7b6a5b35d5d8dc3db27686480cc3c55c091aad0f80058; 0x3e64523eb7b12002f435aea58e3b3b76ee5e56b952991b234c6f5bfadc630768; 0xabfdf7a94d7c9d85010b71d86eb52ee233f2bdc31d339c4c2f074e17e08d6209; 0x6f5bf1887dcc8d67c60ee5465ef208af147fe750806782fbf4e0c055f020a3d; 0x3f469785f473e6e2d4483131425dc568cfa61ae20f8ced038a4d73b5573ab16; 0x3290ab688c4033242cd086b2dfc215113d961cc3680cbe36ac25cec230867d3; 0x148f4dcfaef2c3b9dd2a0964bf3a09ec7b90571778dbf05670ab225bd4833313; 0x2b5b24337eed75cce6737aad61b7bf4083cc15bb490f9806083909fbd97bbc1; 0x4a044a6940cc888453028a5351c9212a0ffb964e59101f0db8e2b6570ac7adab; 0x18a6d11e22d720a1e0e1afda4c411f0f203c4746d85ac4991eeda8b7393bc96b; 0x37756819e891cd72a72e2fc8706ebfeae0c30ee4f36da3c190831a2f3898b0eb; 0xe610385df79027ceb92fda89da80614a0894a04d3fb7586e6aaa24d131908c25; 0x4f146db1fb351f50c32db45afeaaca7d023bd77a9c9e201e8f837bdbf624ccde; 0x56ed80a2501026713bf65b1fa44faab61de9d6592a7358d66c6bf08652f40cd6; 0x2b46dbc5398925392b5c58df16c1fed7b95546023b0d1942825bb22b0f9597b3; 0x18c48ef38126403a365c85e51eccc1b02eb570d1393c2e1d2f1c4438af42211f2; 0x4774f7fe3761bdab1d1f41331527e32a9de03572acc43b428322f8b51688fcf8; 0x1b0f15d246d15a36757b92f6a88588ba369b112bf9862da17da16b8fa122f62e; 0x1b5284a76b664ba6916049d05bc83713cb0d305b6d1c7a46ac545fbbd8c80a65; 0xa4b01af013600ab8a1f8a6a549c88793786f1648be33368cf3953f8c8f753da4; 0x69294e2b50913a89335a03f35a8e0e0262c210a738ce823332f3d0c523ea588e; 0x243406ac9f03f1cbd8facd7442d9121c8556d74c5a44d0cfe535f1ab33278baf; 0x36a561caa82b0158d9d5e2e81935d45efe41e7c125afaacd465947718325d8e2; 0x11af84337f5dc07edfe374b9f67a3962cec99544abd6055ac19f4c6c37ac62064; 0x84395ff2bba382b8a5c71da45ba61f70b0f3239e4e626d6161713c8f030dd3b1; 0x1ef07f252ff3ba28139d05f1cae181a281d4521998b556a0e398351d79703c426; 0xd2a32ae3444ad6c49dbaefe6a919c512af0831ddda3a82416a4a6c3b75f6d920; 0x5cd5c947f5e0c9b3e99d61d945adf62c1b928fce155901330e5e92b1971982c; 0x98a06b3717ef901d35192c60b267d776eca7eca80949188df125f22b871469e0; 0x8d858dae25063a020e06debe6113e953dbc180cc28f82e131a76d1ad012366; 0x76b7eb2c25d8e7abdcc2f3caf6f4f6ac68438e65453acfa1346731998d1ffdcd; 0x2d9869f896fe06ed9572c59929aa94ca8dec427f3c131bc7690ef8df9ebaa14b; 0x216d1c124612de0cc49fc837e698aedbe8073a99c0f9ce7717edd52632317f2d; 0xf1b4118d5bf7fcfafd486e2660d6fb97788708f7f75033b49893f6a8491eef36; 0x6b010c78ae5673c997517fcc6562307a1d7316d9b627d160da8a7344e352d1e7; 0x33d4bdcdfaf006bef8bba2e01a2094e3159971e89e21e090d2dbdc9aa91914d9; 0x88b52424d747ad7d9a56f6f40a777e23ea4dc3255b332434dfb674847600ce09; 0x9ff9b64397146d010de50a51303c4fdd184c0c566ddc607500a1d53b6674c200; 0x8b3ae0365929ee38b904ec59f4c2059e458236f1ccac3b3938b09a5eb24cd9f1; 0x1a4b4ac0330d132ea32f7e673ebe172ac1230ab0e6822ec617433bf1f2c694f5; 0x43253b142b424eec513c55bef5dcf4a8177572b759086abb23cfa2efef434b45; 0xbb85c3f45093185b80c8f59cb776ce61e4de0d6156f02cbbfb1ce1e18ac2af62; 0x7fb762f958465f2236fe6ab4fcdce1b1d2be6d393fa900f57f7a56e881eb53f; 0x1d292b2ab292208825f2ae15f4c4c0d0c26fd6469c938f527b3ae9879008328; 0x9172f09fa85dcebf674a8c8e69ee1214e4d57ffdce6622454308a7b43c9b5627; 0xdd111dc5a7db9681018941a516c5609d0eca339339e18dc4c842f04400c3bc45; 0x5c8f09367aa6fbcebd285a32d1f559e8c3cd3accf10d64d863944b01984c07ab; 0x10a0dd68f1b0649d92f030aa912c05ae0f5c89412aeb976d99ab08870e636171e; 0xd5612a9caf8e842f191978abdbb3a4efc2d89cf9a2e39267db1349241cd7ef8; 0x9fbe93b6b3c820f3f7332879bd41cecfff2b4425c6d1f3a3dfc783da7574375; 0x5aac15a83822508830a976cb377fcba0b38f5c096a4c2dbbeb28f9d4bfbe59d2; 0x1975a6832915a3138762ea8a7db57bfc9316af109e019c7048c85f7502f375ae; 0x9d03d1fcbbe4bcd33e94659c3ea4127965d0b999e28e8789da7e49f77df0cefc; 0xf4e1fa9ebd9efb9177bd9ba6f9fcb8833e109a21f49ee41a71e1d21e04876e9d; 0x515f22f058c53ad1342aa78155e2a8923bfd14652af4c77c39278e451eeacba8; 0xc159e1eeb20c0d7fb2a66ce1c6809e03e6d4c5873aeeeab4898d9862e4052a4; 0x186f343010b2a0961e695610f3c1087e4ebb2816730bd6310d943c695886450a; 0x2399dde8b67f7df8fa9d14a757ff30c4c7bf25cfdcae386e2a334aaf6f1c7521; 0x258cdc573a2afb75e5299bffe755520e889903b7a2bd0b6eb11551b45ab0b498; 0x6122ce0675e920507dea3103f66084439ec611294a3664de20fa98691caaafe; 0xe28de04e58170d7a19400a5afcdcdcb008ba2e189af01a7e4d97629f6cc0aaa4; 0xdf0f56345196ef307b7c72a206506622e250ea9334c70f80bf803e9c0de9a54d; 0x1cbfa30f1beef6a808cd527418403cb5295011a23d243f091a16b4055ad719fa; 0x1c674b6af7e4fdc9bd6e94d1c457f75a4632c7a711f7bda094023abe7ef817dcb; 0xf2eaf5c293a6e454ee9bb3e5e31958fc78583203de4b6ab15ad9824bc5a55560; 0x150119b30fb3b903ed0168f787fda8f99c9e0f2acd7adff7c376443069745541; 0x38e7ad00e7060621fc6299ea88eb021d3cff75fbeb13b38ac55d0b40b98d9f; 0x25a33f1b7a9a78c578cca0ad4f80bfdf10615d75645e08957c5e13399c6c4cab; 0x8c2465629303ac55d8401232d47146d63e4b664d76099a5fbde368fa3f6dbee8; 0x1e6a7ad169027b7c2760e575c5955705c058349225bbb406854ab7a0fdcc7855d; 0xefe77cffeb4f8c196bf48194d1184308d4239e377078e733875654a4b501fd5b; 0x15a5a75f233b038b12a23327ff278977326ac25be93bb5eb2971666969a927053; 0x49577b69415e7a8a2c358419696220883aa34d30cee1b0a7850936e836c7ca9f; 0x160118d9a50f88296446f3281de02cd135ef8f79fc54c404e07dda8ed5730624; 0x23f2503b694ef1152a01fe270d4346f54ed0fb0e65f5523341fcb8fc99c067f; 0x251e25cbfb5a15cf2157a0e04e444a28970a2be783c1e03b69f827cc33d8ca7a; 0x5efe15f0dcef285e9523a97354ffdde8ccb4f1a81ad78b82d6b9f25ee2478d20; 0x29912948076373cbecc1c6e44d3a7a42915121d51632fd886326d2198969e639; 0x9851fdbe3e6b17b9e2305e9506fc8bff1c10b6ed76d2640f5e2279cef5bcea16; 0xeeee3626369cdc6f85c53250abcb3272725eaaa3206e152b5a6327fddefebffe; 0x5c3f6852430a0987473a6b209a894e4d795fdb6e1417c2fd54a752d72edfeb4a; 0x3bfc26275cc3d75854bca9012c1d09f5c9c68edb73f7f4fc6fef7d25a21957e]
       0xa7c436a6e3fec00aee98ee09295699f8b4b9bba19a85d906f19cd2e2ea67ec71 0x5bd0c00c5ef8c64a3ffe74b74d9b49a158192a4579f958b49651bb16c24dde81]).
  - vm_cast_no_check (eq_refl true).
  - repeat (apply Forall_cons; [first [exact prime_341948486974166000522343609283189 | exact prime_107361793816595537]|]); apply Forall_nil.
Qed.

Theorem fp_prime : prime fp.
Proof. exact prime_115792089237316195423570985008687907853269984665640564039457584007908834671663. Qed.
Theorem gn_prime : prime gn.
Proof. exact prime_115792089237316195423570985008687907852837564279074904382605163141518161494337. Qed.
