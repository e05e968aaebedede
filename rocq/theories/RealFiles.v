(** The sample databases and key files of the project's own test suite, byte for byte (tests/, pykeepass/blank_database.kdbx): what the
    conformance examples (Conform*.v) open.  Generated from /repo; models no code. *)
From Verif Require Import Base Hash.
(** tests/test3.kdbx *)
Definition f_test3 : bytes := Eval vm_compute in List.concat (map (be_enc 80) [
  0x03d9a29a67fb4bb50100030002100031c1f2e6bf714350be5805216afc5aff03040001000000042000eb95202b28f489a40b761cf46f5d42041c47e7cfc7f6488db98b585791c969230520000fbecdfb;
  0xe1cbda13dabf90e389e0390e447b32eb69f90cdcd759d59091f09a7e06080064000000000000000710003a1fdf92254a7b171df027d7f0def8e80820008e362d33117b25e5c258d3f6babce677bea31d;
  0x5547abe0a4cb706e7a8aa353a1092000e61ca30561aaec32a358130becfe28423683b97dc92bf16acc9b61feaf4dfc980a0400020000000004000d0a0d0a3de475a6d47d2801479bd0670df2ec0ccdd5;
  0xc818da3ff04e0b685c8066d4b733c273219300e8545aaa50f8e7c44b2aed1f69c7da5a4725623f8eb4990774f65bb3d17b195dbc32fc46ff0227cb80d6849c9fc2c579c221ed7ecbaa0af40932b14319;
  0x444e8fc1efba6c2142fb2706dac7ced662b94ea6bd251716938680a8fc04466a05aa64c5c3434b9d0628d2dc7e7c42782d0344e274fc8e0a1eee7ccd0f23803b3bcfcdb33677612de432ddb2ebd6dafa;
  0x72ab08275d672dc5ecc259d315d19c16745677a85d407fd9d27669af996f16483baeb6afb6fe6f1df9217b785e539b60e6008718bb409916e1fec756b46724426501ce6dfbdcc594761e8883a95a2329;
  0x590a68e82be842d9c62a0d9396fd09cc44a45547207e8d90d3ca399b68e95f434bbdbb660bc8e8a66d1bc5618e696be12383e4dc69d8e87bb207fdd0ce70189549ad7cf1c0964f5863d16dd5c1c5ec28;
  0x6833f8388802c84cb4e4c3951fe0de69263d6f03f5de7ad0112891946fea02a9278c3424a0947c9df1eeea6ac9736da094d86b456c2e7e789c3c9bbb0a2a834ed5590d711b5be1491ad4fcc1a456c044;
  0x5b9bd9df5c98327cd8fb36e54d1d5c4c99bcf86bd6abef0b1c438b2d3b459b2d046e63defbf8f55f002b581389bc75852dc82f44acfd76abe1bfde0aea73b47ff74d5bd84b7cb62b0a13ebd15df8ba46;
  0xb38fcd54fa73cf3dccefa3fb92b8df477f370f347c509d8e255114cbc217d246cc1945f48ac67cd680023f606ef48957f8c1631da5842a05c0ffb5b1f05263adb3f4270b125c884b7489b3189de86797;
  0x6addf76668cb190578fadcdb886d69854c17e867bec2c799da873d5fa69a40217e8c4938cd25e887a05c2d7130aea2af5f5db394fbdade2b901f801e98fe64cf1a712ff865b8112a8e6016d0c36f0244;
  0x42b97f0956af69e8b85855978cd493c932434f8d52b7583944f479e455b9be03ff94d7486e69f806b2d4e4cc81753ab9477d210aac25fcd3638729f4eff3757c86c2804e446bfcdf26f54d5569009c70;
  0xe74b986384209d2ea2cb8a4b064c4851173b577747838ba06a36fde900b1dacb12e943d7bc875ab7bbc7bb8a1bac976548065d8bdd25bdf59eacd6cd117ac9d67d96a0748c862f2e06b5537e9e2211e1;
  0x59e9a184f6d99d0cf43f37707bec5745ab93cb7a1f7160388582332e52f14c5baef4506ccc47df21c5e2323203d2ff3606c4a21e6f11e8ce9cab77a5b954d800d904a63ab02e72693b17bf217f780026;
  0xa98ea173036d2ca3be21683f7902808334fd9ceab56e42999e46335c0e676a481119b070ba9e019e427562f57a187069931477a9de023b45521fd408e1026a3caf15f57bb65ed2bf2f15849ceade2943;
  0x83ba92979d21cff55a91388ad8e7970ba7559de86c740401b0cb58ea6e4102b25d9ad1bfc8bfcf7947f16ec131fe9e36b2493753f1e531c714a8a70f9cb504c59d98b641dd8f081440a0559329d4b56a;
  0x9f8850d9f4fb83261eee1b078d41672646ef362deb41c576eb385baa5338029891b24e5dfc4acfabd08eee700f732f8b1c9da1f738f39ada361e2706e7afd980587ddde7adc3916632db0fef2c9e2005;
  0xf0c07d6cdabc4d2f8f17010296b151f12374fd9207143d2c8cc409e7dbce721c6c2243ffc7f20d84b9a305dd6edf79555856f6c75baa533891999f940896302baf27a09f496bea4495c2c8df7d9ff143;
  0x648a44a7691b1b77a25cc9324d97e1bb426e117788826b87644bd6f4297324b2be8866788be2808e4684f7aface8feeb45d1baf8e03e2ceda19481eea50646d4aa18fbdbbef952ccaf620a4340877dae;
  0x71732efaf843917cfda25b4b37bdce9d6145a5d0f4fb5886bf65998d34bc9c6def3fee2002e6428c7c15f3d331e49c82409da93207aba3f6e8b9d7f6c4271340f80fe4bcded63cf72300a694f0917f94;
  0x9c5443c0062981c810f2b7c8e8959909e85dbda07e91ea34255587e256be0a5ae54ebad1ce083b4312a6f96b014afe8fa4091b3ccdb288f835aeceae025d24d75a802af9d60187724d6006244c31d7d0;
  0xf3260a9e949b7a6a5bf37599e0333a93fa8f69e031d74dbe4d75556ecfcfa7b25ad528e0f0da24dc6299787c73a0d5be827bc1d2d2a38717dd22dd67505214cdb6047c0922247ee5c8b34e5e80e7c684;
  0x4db223c00e0980cd084e1828c0e66f86d4314c67226afe957265cdb8ae3fbbb5a40d4f363c20011baa16249b2a6bf01d2ce5952d5e386d6c75f47596399a70420faf3570d11b1ec274aec6f6414b3aed;
  0x84c6fac8d2ad12950cf21d26a0dafdb98bdc2fa71a7d2d3d4bc36fe9f2f696bf1140f3ab9f244451cf7acafa6e91f5bd9d89f8d3c22d3521ad5d2c5b3ad72afe438fcb59ef3b3a7f623c32b2e015686c;
  0xd8979beabc85d25e900a9f3cc15eccf6cbf39cc4bd925ac18557f0f793c21337bbd06b6dc35882dcbab5f2ea3daf8e4a125e0555d67b7b3c3707e26777c55b6b32a81640d641861cd18d744dde79108d;
  0x7d59ace3fbfac73d92bb82919d266b8d9625fc7fa6f56ada8ca62a5491678ccbb9e8105607a0d6a7cf5d75ade111f0d655446a06231870b1084f1765c953b992b3fafcac934cde1ba89ef8e17f5c313a;
  0x133a05ae8ff5c21752920b67dad139c86da26f25b44dd92b30359360faec35704ce9d50e3b9c0de900e36ab3796607c9be87771b3806ed909e70d1b7ca4709b58446660e1442d9829065a4a32a9dc29c;
  0x1ec0f689a7801ee07c5cfa955ea41ed286eee82cad6642d47ebdc07ec0a41a5d9c51783f0a253c9700630b2e42c6a312530600da92070e94c9287dc63806a9f000cb1821ea2250adbbc986639a1124cb;
  0x7b67d1f565c1a91c6682f37d6591898b42e9198cd6cad5b51182e23cc08bfe00419306addb2735ae2ece839452a1775a5b7faf13b78097b532569df9fe69184fc7b119cfd41356f1e2aadd5e92c0fd10;
  0xe5ddf37b058f52089377fb29fd41448109ad358d1e7a3f3d02082a95f75dd0af042d200045bbb64c0eedb476135d5cea26a65659dc08119ab0c0c21c8ced4c525348fb9600195205395b1de329c0a03b;
  0xc70e7cdd9d76a2e88ce53d6e5361fdd8421d31b63249e11b5c98f9655169d5ee6b54fba1ddb4a449b147c4fd1d7e3d2985bf1ea610523ba93e9f866077685feac5a9fcded8ff1c3ec5f73f41d899e90e;
  0xba6fa711c993cc32771b0ccbbcaaf234accf0369c6252d58636ebdfb2e65323e1f2f689d4f8d36e209f0f760305bcd605c7c831830de932c069407f7dd629b46ca9da1520dd5ff8e7b06c465ce296df4;
  0x789b70230a824f8c622e981902c94f3e4649377cbae8e95c5f8d8b53c525ef3dd4f57ca219b89ecede3d44a7191dd6fe42e34b880ac59f71a1da88a86daf62467841d04e03d81bbe042f09697aa93181;
  0xf8cce17d0938dcd0000a35155960ddb5bb10c6b218a00e8a71e8a386e0cdd6748914d18fa5f0f5a73fcc67599388e00a64bf687e405b78bc3feb5f4ba76816426649fe08aefe65c3755c49f25950eb1d;
  0xe370650dca66fa954e7fce68f4e39cbf84ec45bf4bf3dc51305fa73ab647670a889e02473cbb7c4f7bad734c7f360f148dcf58f2cd61aaa3500b4dfa31803f4caaaef97053ccb58fa5bdfdf3a1e51c3c;
  0x067aa409fa903c4151d2a11bd1b2ba575050f2b9ec9402d8ce2305908488f7e2866784653e67994b896e164f119a3e87ae7defec950a6b22bc05722046582b86d73efbe8b80b09f458526a2ee28cbd5d;
  0xf2530969b7d85d5a09c4bd42645ef7f258c20c7c00472e136bf8c62391e5f64728558e9661157c961685d1de5799bbc5977b4764107b81b8c0f38645bde855da9f669e5c2872f348f2a92ddb2194f0fd;
  0xe5be042d73394605745feda9d7c84de4482d9beee4bf85108720e57bd90c764b06cbbd91bf32a3e43a1f0e25537178f373b7e54c608028676c82d62be44e54970338e2a420bcf7818eb50a55fe954fef;
  0x97886d297bbefef64e27079fd63708126d640a699505444c74f63675301a4958c97dea832b8c81280f481eb214bf2c76761ab2cf0f00d88f879afd0503d7165313d33e0650ce198e7e31a9f7b04b435a;
  0x2aeddd94f081e842c485fd1baaad88981d97554b25d7509262a032c1e647d2489f0507121cd6a82b10ffc3cc09441474664375c889964da3c47965fc28149a6ed3aeb3e88ea1fc9e93b5a3380c6e03da;
  0x29a87585a5f5d982826e30f9a385b1eb5a62af1abd8aa3ca6c43294b621084c0c7ebbe653b637764156692ab76fe2a5b1a862195f144cc167fc296da33efd57c4418fc21c9812a1115aa2892e9d1fc00;
  0x6c935f393ae645d6d0f81d01d3081e54108fd6e3e173d2ef84c91466ffc17482e62c99dffc530c407e2f371406d95df858daf539ad6defbae2d04cc267a67f14d888b131f8475b96e4bff2e09822b605;
  0x09619bd30061f1e4cdeb7b93ccca5eb7a24653d061ef20dee4566cf30929b4392b8ba8cb4fdbcb6a18bfeb467750327a4a233edef307685429cac71920c8d314bc93b8b360e9fd80e4a5739398c21f31;
  0xb030c09fc3a8fe86159919103c26d6a9360ef4522f5fdf2b03b71b0076c63f6f7b469a39be214ede7fcc1ba0ee9eaea316c72ebf31fc532d7b795edda2c8a8f46a221460357fc75e2789e3198248c8ce;
  0x072833e824f162568041561b980289ce9d31af3806b12f67b5d151e58bd988548e9ab4217576f2fcae5cbaec0d88e9dc0a88c237bd5ace195103893b2a09eff146e12df6b83328c2f5dd4e36b5147d8a;
  0x19ba37f81a43d873267cf7555d3fca249d23314a37b84393aa2d7a8435b9d20c56847e9d4eb7650ae1c2551d24b5b32754ff9374e2e84cd3bab8675a0af0ab0b46122c3458f8ee901c53a08428f9f112;
  0x8f7b74be01101936fcfaf8fbf3280904388df4a5b92bbc858c0a3502c39987e61939b33e83e1278ac67872a6b8ac8441787a115486f18a17dd24c63a4553e3e83eabc9b7df44eb49f09efd6577d2cf0b;
  0x3bee746b3c67eb7d3a3532397e0f29df7127abb0d566d6ccf9739da1c540a54cde0add2baee6a2986e8aec84111db7758c9307cf4031567e8db979a8977e09950509b3b4e3519df73fd3205038fb4cdd;
  0x386ab1deec36436ee6c97374560813640072a156c1cbe953d39b63c023cd6f7e19be408a422b03892a058f1559a3e945c22024bea7efd4d622198228392c91c4ea52ab11ab6c69c337732bb6574d8a68;
  0x41316cd5dc716aa43d04a81ff081c247b915353ffeb57aa6fb7dbd56feaeea3af6eee03efb4ec9e5c432317d9e76597f3432e5d4d7d2a3230c4ce15dd249701452da911f428f0379efe65e65e3988682;
  0xe4a2c1890b6fa4efc4c82582888575d154fcb9c317e2d4f575fd26fa9e7f36f02f0da7a15940c11a7b25ad0785666238ccfca957ae96bd684bc0528db45909110c791e5ccad33801953ecb2a317230a4;
  0x1bb9339ee8ca0199018840dc0e167d3b585f0afc18838a30de510b49e0cbd4c68b39584c979222330a9cd439e499600716bd3044b2efac68746328a43b387422b0ce5f30cd84c978c289dd8263948d83;
  0xd32fae24dd933f8e3bce67c4268fa0536981f0e785e2d4d8b164212f0a43a5305634dcd61fd788bb2288b87723bb99e90822b67c5ae70e5f02638df9511ee9f94e8808b915a07bcc7d6f9e4b26a7f59f;
  0xe758436ad705546a6c306d1b78b02445dc44b99ad60bc74a1eca69692bd4d54efe5f2d186dd2d7b01a2fe36e8381f6031ffbdc814d3780b9efbfc7ea6c740a2cc6ec3eb7b1a82b10f3b90b179c097c35;
  0x722c50029df7ad111a3c601aef3da5bff0877b453b4e274dbfa5b8c19b7bad1160a33ad3c7fcdbeea8a810ff8a5c3c1ef70196fb17531e5671b4f332e78045b34c7471b8a0a154a13fae94f5b35ebf21;
  0x9b6c493dc94673e1ef2fe3ab1ec99656de465bc61202f36fa14bcd2c04ff093f8696dd040e7110c4505ee3ad0e1607c9a3543038026f1d2afdc86f1a827206822f6d0c5ea6cae51d2f71e626f6b30203;
  0xaac5916e982f076294cb89dfc5bda437762dee36f035af41169bcf04cd3587aed5910009ec2e4f04fb06428c1525cbaaf8f7136f74bbb3a790c488e900698f98149c5db29ab11708f29da57afad349a5;
  0xbff8aa5325d2bbcec6eafce95fed6fd6027f8ba983550a3c3d98ead8ad16ad22a3097c3b0b6c28ca3dc2d8c124e6fac2260425274ec0711a00a4945cd179cbd9d201ed8c3b3676f6acb4092434b16a55;
  0xcb17e76d31bd0b4c3e0283fb878c4a904d146d77bf8a9819f454fc0f572737e1c89033accbd6c46f78385ec9faf414726ff33c45a1be8c29a648aac2742ee11984254a507fbb165c35746cfa8f53261a;
  0xe42e5db68a02ebed161d1226ca3493b8e259fe5ace3f80de96c91f9f31f9504deb6c48b4030064ed05fa4e97369727356e693ff8f44d1b8a7c4d079804d77658df28d8fef683cbc0fd06eb1b04c1c438;
  0x1a4a7548b2985d740538020fbb6de36e9dfee5e70190f81e57b1731e7f8194c44c885eb16dea944a808b125ceafa8b0ea03510343d379009d186fd5ecd8e072b02166d8691193dadfb6d2604af245140;
  0x41ba2d495fdce7370dc5f4ace83c92855322be32b7eb34a618a3611813c6b9b9da9962345e158045b382ef3630e33dcf935e8bd7aec2f13161b53f58ba65447c79f2876d1e18c42519119b85ea4a0c5c;
  0x9bf02b24a52d7b76f2fee5bbf989a5c2d9e19a8e6a70404864d0337e00917ba31d374c1b83b90d01fa423ea7d646181662727f759861b883b49ef82b3894508e6804295bdd12adae28dedaef33c484b8;
  0x44504aa8627e6d700bc41d9a707beb932d951bf4ca2d5050db62c0c3205a539452136e3f3c8271b60d2ff16a477489380fa3778e5a916b8bbebfb6140d50453f5bcf4215c06a8388d880af7f33df1ad3;
  0xe88c5d2fbf150fb13b6a1fc5a14865974912b0fbb5d00ceefcf5d1273a79b24e93037a213f75b107fbcf2d485967ae3be769ff8bb170f8a153a0abdee999c3aad690c16c81415f86ebfc9dac9b0496d8;
  0xab18344104e6ac3c6da4a4538a0c96e44e7f26030ed9fec5d81216d874bdd7b19ec9d1a8595051afcbaf38c2944b432b7d0da84305fb5ddc089f5d0354134ab8c3fb1e463e5d5266160e877ec52ad476;
  0xb2fe88ab5343bc12d793e5698e3d991669d1ed6161cbc825073b6dae22fcc568ef9ef209dda09080f42c9598c17e34b841794f35a92d27a98aac43512c0811d4da1fae5fddd93b9901a894588cdb254a;
  0x55038cfbbdc76cf57630ae1f449c6dea7f3664ae73c1f6227acc6394387ca58dbbc014de3fe1fb77abbe2c48841e7c3b0f535697429b3af2e5b738d20b9e8d43f17182d156149926641f4c5edf6f4f34;
  0x68e18fc80c9e8324c3868139232116c975289002866d64088cb5e71d001bbe75728b7e0d879042608ee76842c3c254db1adc8723fbc70768df6cf320badead27fa58e2f498ac01caab963c02f7dc31cf;
  0x0f870e19b69627efc4c368446ddd75c3a5dd3969ea005d725d933850bdb8530a116d53e79f3cc5e29f8a61b1bc17370d239c2bcf7a06c75deaffb4c37fddc72938b9ba994b4ee589cf8dbdeaeaa353e2;
  0x911623e0c4e4800a194a69ddcc0a8fc7cee511aee4271bd79ce650b7ca8a78b99c6dc9488cdbb6e21fc5ecbb62cc0cc29400037920f78ebd692e4434836a390d59ec2a07adb3bff2c45148738f531ff4;
  0xf7318e1fdc1064b00c894fb00a85bc454c4a785d784764ada69e5bf3b75ffba023aff2ec28e8fc3611d8001b0e439e8b4aa3d499db77485f67476dc52c99b74288ba478efb53f20475bcb478e5a7c9a0]) ++ be_enc 78 0xc0629d371f1bfdaab79bc2cfb8cf427af4a513a30c348e72da5994abbcb26b10096342727fcd7a631df49d1d7f11d0a618fba7934666777c806ead5a4977547ab5036751e32c69278cef98017d5f.
(** tests/test3.key *)
Definition f_test3_key : bytes := Eval vm_compute in List.concat (map (be_enc 80) [
  0x3c3f786d6c2076657273696f6e3d22312e302220656e636f64696e673d227574662d38223f3e0d0a3c4b657946696c653e0d0a093c4d6574613e0d0a09093c56657273696f6e3e312e30303c2f566572;
  0x73696f6e3e0d0a093c2f4d6574613e0d0a093c4b65793e0d0a09093c446174613e5170394d72464d315270534c4f3869485a48474169506272385a2b684446707030636774482b524d3068773d3c2f44]) ++ be_enc 27 0x6174613e0d0a093c2f4b65793e0d0a3c2f4b657946696c653e0d0a.
(** tests/test4.kdbx *)
Definition f_test4 : bytes := Eval vm_compute in List.concat (map (be_enc 80) [
  0x03d9a29a67fb4bb5000004000210000000d6038a2b8b6f4cb5a524339a31dbb59a0304000000010000000420000000a6d75b3474348940ad1776a53536a97c9e01d6ef3daec7cdae3ab7a87dc08cfd07;
  0x0c0000007e6a8702e18a4e8224ee92e70b8b00000000014205000000245555494410000000ef636ddf8c29444b91f7a9a403e30a0c05010000004908000000010000000000000005010000004d080000;
  0x0000000004000000000401000000500400000004000000420100000053200000002adbab9020f36597f493fb8da8b7c269ff2223b89315a8683a19b3611d29f792040100000056040000001300000000;
  0x00040000000d0a0d0af798d3cd963027d1efbc80e67e144d7e280f34bdac72b89b0b469e0ad912a4a3d372a4ce5ff42d80e4ad20ddc2c4aef1a700c0a1321cc8b67719c9bc3253368c6ae3881adaa73c;
  0x36ec1a40815468a9a51da19892e211aa4f9236857190eea00e4614000015a467eb2ab2bd4a52c6dc47843a4ee57adb7b6a781070808a8fb1a46cf9d412d785ed4349c5695b40b3e6e83fe0fa279fc6c9;
  0xc6a0e50f7a2f852c5a2e1f71845bc1db4f7df579e70203fc471b4487e0ddf9252b07cca516bd693a97a455352d12a517f79f195bc5ed61e212b169a16ac32ccfab297c75ef4f73dec9e9105005568653;
  0xfc2bb27b294aeb5a595f5a26976e063297feafda7e9787dbea5a7e9370491fc8513a6a0e929413cfda938231d15c3aa73f75804b4e64e22bc1c2022cc9e8a2d1a1cd1b42800526e249adcaece5c8c2ba;
  0xaac7e7b47931818d8c63a3e628892913e996bfa3196bdfc575207ba0655d30f0f6480b90c2fe10ab945f1229913e7205054720eb0842ffc96c00f1474522d4a15ea60a47cd8848c0ea2c93aea0d0e3db;
  0xa0327186dfcb172409421ea119463609a11269a234675cac576b90eb6ce406dc0b3c28adce9d6f42ac39343a82c822700f9b87582ff75b92aeadc0d960aecda3ce31cb930b26a0f7b7e69e95ef1764e7;
  0xde40885d8a04a36f7866c8fdb3cb09d1b5442a8526110b41edfad6a8c0a431b7aff1543bc5cd1fd23cd4c0ffd9ded17ef3c82176d24b51a30f1f235160389d8f4f9dfdb2db1b964e7ea9e280372307f3;
  0x3eba5c4b58f87d2aebf2289f316d538e7025316d59e239d4edf506d6475b061e39d462821dd21bb4b8346404e433f6efdd87075af4cf2b40de988f8e5fba6a80c3310621aa1e9cce25464a075b91cf4f;
  0x0c76ad2a18ca168bf81caec9d5c0712bb5cceb81ddc0ad446cf19bd70265653601f4d39809a0207da0930b8f53ffaba8a3d2cb4fa0b034028526223a3be2be4f1d8d848a58e9429b7dd032eee8a33722;
  0x73d1cedc48daba41cadc82db8d936465a498806f79f47900ec0a9e1008a7049921f71b34178831bda6575b3649da106909ffa8d05ae6d53939ed117ed5e9be7cfdd1f349590b5808c97be08ccb6a966d;
  0x61d265eb28dfb7957ceb4f79d28058ba229a5704fdc1b9d4747e14b71b10fae8df3d82301471b460a29138a502e346359998f2cc0e176a5cf0c0f4bff7f4982d7478dfca6ee0c7e562ac9eb44e072fa3;
  0x31625f8e53f99401a4a384d1bb0124e39f7a682ba91a34d5416d7e86164f1ee88e6813a2fbc07c81308e3f280ea7d402bba6340ecce54d3e7eda26b427f5d1753c124da4e28739a06acc938d8e1dd436;
  0xfeb14094309773ceaa295928ba8321ab7c285371add1aeae8b105115570521c1088f4a64b1688776d674eddbc7002b2e130e69cbea06b370261626544e2603054e6015deded4a5a7f6913f4fb68b4540;
  0x706282518f5c729d970b5ab21b8198f9a918a9e585b1eaf49e067d9da3ec5e7620963d5d026f0727d6ac2996cd8c32dd7764842f84468daa8a295bf9aef946bbd7fcadc43d507f45f6eb397c65a44f0b;
  0xcf1581f4ee9377468e129d373ab114785a7eb1f6335d0c590f17f0b56933e02787f465bd6d19cfe5024e3666c1534b08a2e591bbdb4bee654590487da5726afdf005defb09a03ee8f55ae5434d3f5896;
  0x7c8d5a1c61abd95db6f27087c3ee13d5a8435619c0102a39a415c966c73704cef00acb816b0f48b7f847153449a11139c9d17e1daaa90b985c2e588497fa64cd492ff3de8037cb1a293feeb3f85e34c6;
  0x2eea2b2261f2cebb9778ed93eeef9d1e1539f8401ba2b1e374a30a8db6c1b8a920011b701df487cb09b1e75871114139ee4cc7e33e602dae79e5e823dd3e1e447d2697b33569357a8a3bc9842b313ea5;
  0x6396970715129485f864a3b80376f7eac233083f36712105f049e24e5ca217c8a90353b639cd62a68f3b90212f37a57ac47b02dc846dfde5e1a382bab734e9633af95857d6378c30e756ebdbfbe3f4f6;
  0xde6dc8c12f7497ec04e8070054ad81c4711582518508023f2a3f6ddea11726f49aea358532ef162edde9f6e44572776181c241dfd375e47a9eb7397bb4f965ed8896f7cc64f9e0b41cc22cd6abf4889e;
  0x55d41d6847906fc1f951e204233430c23544acfffe5a7abef4a55437ff011b6381006d22e57b7ca56fb1a67e8755705fd6fd977566b92103a2d08bafa999ce2be18cec4fe13aeedcb281c113b3c92554;
  0x205a0d2b5165ac1e951bcbd96b3e63a3877957344730c380442bc10ecf94e64f4f40dfe8e2ba390afa68cea69666c28192877f85de346d496cd7850ba46794b66be25b8b9c760d70185b2ec988fdb8bf;
  0x00c8c4f4293bdd1b158b598510fdabaa3f8aaea5d6ec8f3e74225b99cfe7de44544f09b9d9c44b19f19dbc6f0ec76dfa21612c781aa17df87b819f4451e2c8619b20b4d064a73b5ec98b3eb4186567f0;
  0x748a3b7a0f2dd4045605a16f06a49a741c0584a4a38bd46d42eade27c1b632214f3c0931e8e181d322b9fc8534bd797cf05c870ace33c7230c97acb93aaf61582caa5dcbfef0ab951d7dfc4fd5d078bb;
  0x3cb4e03f165a18ac8c01be6c581988684ce7c7df0610f118610b7bbaa2bf7879455d8c96dca7f2127ec76889aaac10565004d6f7c3596cd2340c65d003975b7355baa04dac0dbc9c0dbd51af8cf4abaf;
  0xf92cc266abc099b6c4fcf1daaf8ae318ed135f7e99ba78133e11aaf4a117a14fa7b8108f597e32d4bd335bc971dac6fbf88189c774fb437d33c1b2875720b3c0515352eef7e1a13070088c21cf6bd7b2;
  0xafdd70b23a32a8d55f9d8d0845c3c5016f375259b73e8df6e78953ff5af7e65d917bb25ac641f855f2812867bec858bf45b359588bf060854ee3712effab84f228ac7a460d7014c5733b9b977d9f717d;
  0x584af5b3f331519fb7fc4bc71f3a03eb1fef0c4d6c9a407ab7fb8addf42698b4ec7c78b54112f4727d31dc31784d671e15f11d323d31f61693121e0a801fdeee629fe2b4c2c63cdd03220b9303c35ad5;
  0x1a6043447fd79fdb4976d5bb8a92f454e4b928a22602cddfbf9b30bc50f7848ffc6dcc8ad101e21fe323ee437fa46eef61057eb935ddf63ebbf5ab7f94f4a580690628736d99c08f16b261043d834813;
  0x4c5869381e5f26da2f3f323f905dec6a05511c21780545364e4c258274b785ab6dc72d1926d201aa58c1aecee53e47ddd5fc4c9ff5f3e95892b9103b7c35627863214bd822e90f5b204a78dc0cc121c8;
  0xc0e8c8c0496187c9d2b25754e64962be9c6660dce0b9e00801afd8b92f5433a822e5bc51dc52e6a8f11bc6e6039347094d5b3dc0cd7a419dfaaad680ed07b5f1696febd7ba90e99ec23fc2b3ca50a1d8;
  0x45f8149f6e91b634956f19b4e635e89e27a0bd9c91863c93a31793054e88de2c4b48c4459d3c20c3e9e9ef3babc787e0b6b3efd9895ec85bf654b8bc1d42eee77e8ce1cd175ac05a52ba8fe0dc3da02b;
  0x4f426e3ebb6004625ab460f97f66907135197be2ec44c790fccad65c27c212f3e8627d00794b58ac5ee89afa3fa77c98c451d1cc2ef57ba4fe0492b4dc799901bdc4835ca107268caa29614c87751aba;
  0x05078f2023692dbbe0ec9d5818efc64aa44f7bf22c816175f3c7f2f2fefc8cdbac498db820be71b16355f70900517bf1b45225e9b8fa86864b943f39d51286606400fea906331319347075cc6f495366;
  0xc53669a7f76f668d3effe1830a1156d3c50a449cac69af60fd85b7a4c5469bf96e264a7e338e446fca5ec2bde6269409ae5fccb84bd28bd5bec9600d2cb9373f5a72fcb9f61a26a75a291529680eb873;
  0xfd94af7409f9c7dcbbfb5932c9ed5cfa3485fd6f4943470da90c8b74d8edc70430442cf8e4b86abc104ec4b5a6b22589fdc26026ded7b286793e9f2a605b5f8be39b571ac02f8d259feaf357a1378c18;
  0x1a9eb905851bb700455b64915a8a7619886f5d56554a96432504489b8cc3657a3bbab19a1bb3a61e8ae94eb2945fe5f5cfbac0fce23f4780dd75191095a5c904b454a37ddce1c74de74765825bca15bb;
  0x88ce3236d9313813750e750c501b3b8698b031196e5b562d0eee4b1da01e7394ceac81d30bd451ffaefb78ee1515aff164b624c6455c751d55856e7e71afbf59100b2587718b0c0c26a88f3cf416619d;
  0xaf34d61ea98f0397642b899467fae1ae8f0de5f956e987ed9c8974f107e36a5b21407aaf5fc241cb1124b76a0641c046b4739bed17a110460a7ea4b42de2ba3f6069da741206a552ed24982e5bf5d8f6;
  0x9683bce23bbbf5a78f3a0423cd3b2550cb1c3b999361ef32068677a80b81a072efa110e6b3f39ea9be9f255e03747673b9ab079ec2d1af5da82a11d19cc15e50e8c2403601237e193c01ee8d40b5d60e;
  0x0f81d854e3444bc4e08b96daab7777f3255c937871a21b4732952669f0aafa42398f097e4f401d81777a9290bc06d72aa11600dcfdb078b3f8febaa384c082b58c88b5e9bb731b34fc680b1396db7aa8;
  0x8de69f2e71964b5056c0e7f1ebb700fde0c79215ceeab3e839a22c262241113fb688414a47308469346d75b8e37b303b0e6b731fe7e6ac0df59436c27b6f2462f053b1b5d768f276095b137246762ccc;
  0x0b6e8186fde977fbe32bd55ac9438ec9028a297ecebdebb249a2be49fa80c14abf58cdc5ba470dea5d9a0b13b3120e3b71b8c76ea0bca6d286b58db4b1544fd7accac8df15af660e464081eb3f276c04;
  0x1934e9406f32b0b8a3c38ae02675ff7170c223e0fdf17ac63baa070be46c0ddeba1c5b63963b94bfb03761b48e09b243bb0abe674e11bcc0e6d50479638e2ff2cbb87693748e0b166c82dab26839a87d;
  0x8afac72f674c4b40e2324695e649df18f7aa73553c49082b13e43a4ae86a66dd1ea8e5588cad16f8128311d980900bbee26776e1e0f390d6030d2b9864adc20abbb24811d855599a9f9f164ef1f16546;
  0xf8b4ada4625156e609085ff3dc4f03632889f4b2cac1ed0171a8d4928ef56abf7ffc3ff12145d528fedf3a763b5b4b2a656e5e978dbe75dbeb339745f8944aff5f195ae0c6ba23640ff3c1a53dc13bfc;
  0x15729792fa3bfd63733863634479eaffa1b462dc7c1ebef4c333e58f47f530ecb7424e987e590e8ceb485fadf83cc327e583b013c564ef6d8b2e58f8017be565c997a4b8470de889e65af33b3121ee0e;
  0xd85f72632b6308ab3d0209f7bc7f3e14f7bebb24d89a48c49ecd0c8284d3c000830134672d9e4317af5987970c1b0bf1e6efa4868e00b3f801a61b6dcc039f96aaba4bd8e645004cd9e06df8ace4a72c;
  0x04c58b721db0400d9ac01d29276c68730f0c0699ea593746a32507cafb54f13e0cfd93f13998c131e6f03d002e0a3dd97b2b297c1f01cb4766950ca3c394a27064d07e7803355ba14e26d104f5e9bbd1;
  0xe826c706d80cd65eb35551f8ac93ec8862617c9160d9b75a81b24dc22bc4503ff6308d5537697a9e904a0ff566b90d38b6a3965368a788633e658a19f9ac7c323938cc8b4cc5d7a59c55e4c11c47f574;
  0x8da7985f7e6c709ed87f97d096832cc9b55dca2ad3f2afb7e65b14c7b3cefc90c2264a5edfc796b17e55f6499bed8922fd5b33692468d6285fda6571e962db0c8755c467984a6d5e77f1334f7884f44f;
  0x0b27c7d041c094948b7666a8dc28dc8760efaf6b3fd1025fdf454dc40728bceeaa1f167fb223be875e20167a2320ae2e2d51b94270273dd74bb29e9386eb14eaddd4ab3963266d5e23fb7af0c304096e;
  0x1aea3aac229c0449bbbb4c97c59543f9f288165960f29ede1cdfb3d74ade3c1e2613d4cefeaaae81e612adb3a8a2848202ee297d60e547ac13311d5f66dc57bffafe5908a7804a195a35bae6568db4a8;
  0x0035fcf81e3d9482bbfe40b1342f23ee8f79487ff8bf4fed178c8a6960ad22370b28b877c403c95f1b7c1c4cb6b8a11c8764f8b923f7a892ea86895ac45bb4d75112514b316eb0e623fb72a724204d2e;
  0x8b264acec5b2aefc42cc3c214acf9a70ebe1ec8c7249f9ad27996a7b759679fb0d127d5ff5215e217cfad5d7ade19a3e1e9b5bd9f35ec0e0f0a01d545f28384cb328d5a1ab808560d313c7591dbd1e08;
  0x734a68d13735473a473d8467d9bfe6f28acfef91b7b4175c85cf9dbd30569592f211a47a9453db64067c25c1821bdc0a34d1ce31428dd6b32bb302625383d7ecc20d2ea9547eefd14bd68800b1e1ea9d;
  0xfa08f58a69d0d7db8efd179cafd2d02289295f59431351af02bb5761a9170dc354316e55f600dbf3e89818093483733bb69dcc45085b870d8dd959961ca7d8cf6ddea597419becc5972bb33782aa3849;
  0x1e16639bc782e5b911639e0ee96d56d950f6573a9d6b95f507d6a45d1235b7fd8007b354734b688e248bf78b25e21363f9dfdc7ae2da35bb7ab997975362caa014ed64e38007e10f2a1a5dc0d4674d5a;
  0x36a0d307695045c714239754d6b281c6a060af55cdfb6c04f8fb9dbfc1b80a492b5e151662701fd476ae3a012097e64987cb357f77b2c437412fed0ac28c9e1754f3d45eaa91bb0fbd7e2065cbda185d;
  0x00b4c775539f4f448127146708ec9769e6ff90f277f5f1b37218e5e65e65b4025dd7ede48468d18b97e9caa9e337854dca6489f5f05ace1dae849f5092018be7271cfbf88722ecb0a73009dbba755c9e;
  0x7167499b935196e6a2866b068c1088e2f3cea4b0f7903ae1f229a0fb5aecb4b7e3458b54f73a2d020700384602e7388bef1807f45d1ccde25714a818240d4b17a92d8db8dd97d19f625a708a531e39a8;
  0xd7f996c5476d5c7a6ab88823693c3b510c9fcb7b2d8b4b5694ce1959974fdf7635338cddfea8a5662ab6d86571fa080ffdd379f034fad9ef633ed250aae12e76fcb106687f03ab1c72d2911485e087f8;
  0x5455bbdccdb3a09795f6fece9d95c0fcd822c85006cd234bfa72f4b587985c26dd37774b799a96a72026e81cda7a8d2c20f5df07ce6cdabc00b9f7f274299a871b9cc7a332b98dd60cd829311fc01055;
  0xb110fb3417ef6ff4bcc61baac21b2d3067a0ebc22adc9e4d63aa4e9809d74b1637b60f4509d793280ff80dd68d94f2c4f046d570fb8d44fdc123813063b951ef550bffc090c82d94671f50151d57c9b3;
  0x7d0106a724c39e974a13ae06380aabdb37c79946ce78d2d772a838a6e3ecfa582ece9abf6d233c9082b48aa4e957f7098fc89e0b3c7d63ef32ecbd19cd19c9f75d7c015de1bbc366430274cde6015dbb;
  0x497a510f17b006776400e4e76698b596c1d642c9f73fb00f88251d002186f273e846ec945d2408421b80ee03d81df03003f20da466af1005b0987d83058c242e8229d51ccfcdf0cbb253174e6ab2fc4a;
  0xb11cc4faaef91c1830a549ad8a843c3a65d6f7361285a2d93e3e9b73a7b239fc676261267e58753196b5d46cc1fd080d92efdfabfaafb8aa28e98a43ee109b441614bed7772c90050c5661c549e9d102]) ++ be_enc 55 0x6850f13e2cc59c84229d8241b81f95f8a02eef1f93294182ff59993f77cc524961a4f9aac6dbfb1b879aa34f0b19d06112de8000000000.
(** tests/test4.key *)
Definition f_test4_key : bytes := Eval vm_compute in List.concat (map (be_enc 80) [
  0x6c7202d715e73a05ac9be0546892007a18b43e9b78b6e6eb772db3980e85945039a910d6b54ceef14b1eadaf0e033a512a7a8fd4e2dfadd6336152d7612b26dee8800e6bf56ad3ef74ff9a5c3fd58602]) ++ be_enc 48 0x08b1b03c9a12731e9064b337d9ca08134fe971f7df20255853d70be0f965ca242b8faaee44f603afcaa1101e175aa239.
(** tests/change.key *)
Definition f_change_key : bytes := Eval vm_compute in List.concat (map (be_enc 80) [
  0x3c3f786d6c2076657273696f6e3d22312e302220656e636f64696e673d227574662d38223f3e0d0a3c4b657946696c653e0d0a093c4d6574613e0d0a09093c56657273696f6e3e312e30303c2f566572;
  0x73696f6e3e0d0a093c2f4d6574613e0d0a093c4b65793e0d0a09093c446174613e317a6278546d48307864614a6a586a6b7544693358464e6b55435857696450654e503266506834484a576b3d3c2f44]) ++ be_enc 27 0x6174613e0d0a093c2f4b65793e0d0a3c2f4b657946696c653e0d0a.
(** tests/test_invalidversion.key *)
Definition f_invalid_key : bytes := Eval vm_compute in List.concat (map (be_enc 80) [
  0x3c3f786d6c2076657273696f6e3d22312e302220656e636f64696e673d227574662d38223f3e0d0a3c4b657946696c653e0d0a093c4d6574613e0d0a09093c56657273696f6e3e332e30303c2f566572;
  0x73696f6e3e0d0a093c2f4d6574613e0d0a093c4b65793e0d0a09093c446174613e5170394d72464d315270534c4f3869485a48474169506272385a2b684446707030636774482b524d3068773d3c2f44]) ++ be_enc 27 0x6174613e0d0a093c2f4b65793e0d0a3c2f4b657946696c653e0d0a.
(** tests/test3_transformed.kdbx *)
Definition f_test3_transformed : bytes := Eval vm_compute in List.concat (map (be_enc 80) [
  0x03d9a29a67fb4bb50100030002100031c1f2e6bf714350be5805216afc5aff03040001000000042000d6545a0af9400b79c9d670a41d7e72124d1ac9bce386ecca9a69cb60415fac1605200091331176;
  0xedfb4c7dccb928c98b956ccc97b20f97a3a9f470d9035cfe5b8b70f2060800640000000000000007100046eeca6126992402303251b6eeb542c7082000be6f060473c2d29618c68a3a447118e5abd946;
  0x2872be789147366e9ef05715fa09200044c8549d270234756f1e677c5ed5c308915d18f7e22e9a73ce71b8ea7ac8ead10a0400020000000004000d0a0d0a79990468ded261d584e90f02aa4e55743fd2;
  0x3eb2ec986a72353603630095362ddf04ed94ced8e53fe8d70a0ea987648e21c100c2263e0daec4869e6c527fdd9623d8d92328d64d3fcb2849bde6a262dd33a250d1066df4e72dffa05f195aac97b4e8;
  0xd4ef8c7cd7919a44d7ee40e0ca591a750925667ac7b86e6dd2365664c113bfd1c0aba1640073f3c350c29ae4d4d93062d7f2ebb57e8dded8123d02c8f81447b8100a98e8c1355050263222d4ea49daf5;
  0xf5e5fc99f904f8be477d2b6260727bd7e3edd8b181e63b94e89d8661a41b64d8bdf5ebe0c15fe8c1e6fbb03f086d4a5ef800215b7929bf71b98bac62fec68dd4323e5eceac365dab964eceab9bd6ab34;
  0x89b0133351436aaf0670a97cef8e5c69805fac574eb8dfaa3bab4df4cb0dfbb2b1f1d157745f2f138111aa7f1fa678f0321c53833bcc95945c9e9688f92bafaa892715b6d2b0f0a3a6a64500378576d1;
  0x313b6111ac732ccb0e8f3b363d74aeb93ed48d6ea8fb26360bb55c3c75ff963918740d8431d61bbde3ad712dfd59eb1a0e4f4316d1c978457857cbebf8f1794e898e410722482ada8b3be2c37ea23be7;
  0x6e07ce935e19f69ce9b271cedba5143b8ef719ec9f3ee16cfa8019316d1eab8ca119c0237c7b8ad657d27958d8d52b27a35fe70cb8a661b81f1b5b973821d1ce37b87d5f063a27e28a5d1aec8a57acc1;
  0xfb184527cbb786396796dd1cf7a9d79d2a08a40a3da2b31a172c8e65535030d2550e38edcc1a0f2f050a66de29ee8d25b321d0345c8f1701098463a1f3f4d15ca992491dec2df39b24cf21f9ebbfbf44;
  0x7ea44e306c96ffaad9a79c384622c18ecdb7aa66fc86c67d77fb1c6d7b68581caa72ac834c161f35cf3f4e083dc9ee6956f5a2999c52acb1c2ff00e166fda463edec72f3dcde5252fa5b74df1251c0af;
  0x8b53bb2b96ebee0ecb69b9aa3623b73f13fdaf4fc8a7c6874cf10212b9ae6b17244fa2c4532ed9ac70e6e37628e0af01fd1c9116ff0fa7911277290b122bbd840b6a81068db05a5b43dacf344bebc165;
  0x35c1b018cfce553b78687e19c4157e28c42d24f420eaf53ad4153b23c4038661fd9a4b75f08a5943b83e9487a5872e7a465fcf1049abab36aa94fbbdb5270d69c16f3884b256e990fed058eccc6f0a11;
  0xcb08d70cde214bbf9a7dea014edd3d3f2af7365b6c83a9a9326ebf6050d5f1d7273713ccc20ee4ff92a1fc3830e3734ac073c96541fecd3c63c5dfeae2f1e6ba3b1d74251854185c2ed24b07175fc8f3;
  0x39541fa1d00dcae8f20a6893e647a75ae7bba13a73fb80841f5b813e9f93bac2340a46629ebc80baf96d0063fb7d54464a324c151a36f6023f0b32c05c0430f450cf635c4aebb481f9cd4cb569776e37;
  0xfae8caecf92343bf28fa5c44ae5fb6750b2f26628badd4656889e813f220d1ed6f2a4e6d6410f7c732bfac2578786a59083e9c733ec4c23b30770049022df3cc5a31be60efbf502ddca5a29eff8bda4e;
  0x2127b83f78d62f165b8a00f5faa0e82e119e8fb72c58a2a7ea4b59253cc0a33e32772adbb85466b0ca200a0fbd10d7cd7d1cb379e729e03e80cfd1d037d7b0dbff363134adaf13903c9cc9dc31a646ef;
  0xaeb22c25098755cd4d466e7fcc6a01ae2b81fbaf5fe2b3a3d167e1e9a35bcb9ef6b1ed6e5debf6baad751edd1c4bcf1fed9b025799923da5e3a172974d23c6762ee005686bbe720492ac59e47e5fe2d0;
  0x0979221e89b7f3a5409c6158ceb5f205361821ce5e8976f2130770761235f37c3e1028438b48e5db28c9b0779d6efdf2eb0d2ed737e4661eeea26fb07391f1bedc9da7710f133cb71090d9ed3bfbe55f;
  0xda74faec9f1e6fcc78974cd67ca6e597425fa59db7e646b29932fac3e810b768854311bc8eaccdcb1bf58ddfdd199479f2548915f0d0b4c29d128bd0cb57b3c780d442090eab711a62219908e0ed4722;
  0xebb15d59d4337467d3a442045000bca56d88f4efcb43720f2d36e15690d0bff7e1ccbf5a50b051f4281015e2d0a7cc168edc5bde436cb6fd891250e654df39fae0a3b1c7c2d5592cfe807d41fd9d4609;
  0x49597de7f9f1e13abc10159f84af287bf2fe54f16b2d0822ade9fd14b490de9ba0ee248be02de610911007e7cd780cf1e7bbe1a9608229f313a07fd5248a43c814f1de94be42363b28625b66a5240917;
  0xd51998fc34562faf9d6dd7645efb9150fd625d5d3773433972dfc352274096bdcb1c587747ac5b55caa36b47219b18843ca1028c862597e968940efd0897c7bcbdf76d1b65f60a204fdb24c8cb3e22b1;
  0x94521d4da86ca16ac20b573d09034b6980f100c945bb51704b2d005f29e89ad4ec9e9cbefa3f217ecad608d3aed363a7328970d1f6ffd212db2fb9684b65b55cbf71850fbb0d268f1c7477707f7964ff;
  0x794cd64db2cc0ef576185dc74e409a6a5a9a2ad379323ec328d598356535680d0075219778eba67172bfaf383737a3329980ed688e29a49b5d74a8f6462f8a402882bd072f2070ec091d17e4fea030a3;
  0x69ab4b78a64cf80ba0f204d671aa0992b233501f7e584927788e955dd9395a178b36b45eea041d85498d2678b448b96e906ee089a1d047dfd3fc94a2af6c8106f6ec5c789e26d9aff1b9c57732b7ea6b;
  0xe294c6519d907a97c3b7dd556ae2ade94f81bef218e8d1d989552b457a936d3e23643edb316a9e528054fedc388b6e54e4bc7f5b1f540cc2ed02ba407c4eca75d8242cc3162a56afe8b60cdcf52cc59c;
  0x737a5e48f738134f5ebb9be607464fc2a7feb5b4d0b682d63dcb0e66e317bbfb24b3a9ffa8a376a75d185343cd2ef350be87cd486be1518a7340c104fe722281d7925d5f6708d4b383d810cff126bced;
  0x05aa6ca11c44df2586517fe7fde0da20dbf22a0767880fd9c0af1e4e724f832e66311e965b8b3d353533800ba523021ef3cf3e29ebc0fc0ed915f9a036c0e2b0f095129e9352b6c51fb0b9cc9a8a846f;
  0x16c03631f106011f2e3fc373ddeb640e07a4bfc346bd4f0e5dcbb5007ac2448501807488569e555a3bb11819d62ef5e3d9aab8135611fc4a135ac0f675e7c79308cf99dfabdd4e1a311f7184abc1cdb2;
  0x7add63dbe16d73280af6562d0570b47a29cd06c3d7072dc8579c436ea39dae93c4af540f9dba93c07f3ad1d9cb62b92db3221d33a4b054c7fa045c0197957ba3538b17fdb4e3192c91c5e8aad15b57b0;
  0x6c4dcbbfaa4cbceffd1cced77c5649afcff001b5626dfd5399b1cd3d8db6204ccd27154874d950d5f75c54b6714fd62e3c70586579038e6994c9fa23aa69a36e9af1cc514f715ca9ba152a55ec0ddb52;
  0xc5f4cd00a615353ee63da5c3f5de302d27c6d9047225c0f17b09fa35e2339b657be08b4cb091cf088a761aac3b59c7b21a25754481c417c1f1bc913492215fafb1a9bc5a77b663fa94ed077bad80cc52;
  0x489974190203f7dd58f56b7952e34e0bbdb4ca5cca2785232d09a1b53770199994d120c0c4a95b0cf5ba2788fc7d9233f0d73aea45ffb32c8e772be57e039ee7fd8eac7303071d3d92d1b6da806b37b7;
  0x6b82fa75de60b888c525dd9609ecf0e100a45879d6fc324ed725e7b5c4011555c20af32e8f30e47ee186c5b039c8d9979036cd8870e0e7547a3c0d91b027891b3a51ca80ecf77629a85f423491b8dba7;
  0x1d92e618bf0bf07cd99c60f27eb90e10437851f0aa8db54131746841273661419abaac05bf7cf6c251017857ff4d049fe4a91cfb0ccf97a66a8fd2084b971a1a9030cd420af99f52658994f9558afd35;
  0x89a69ef479124a217cee2bb75f40ce4449424ab72d7d87987d6b73c4b0444fa220831f0c00568704f1d414bbe68968f7b8db492c83983f945c8652d2fb7bc7546d9a7b01ccd8c10c1230fceba6155955;
  0xfb68eb4a61fee73b3d5432feb6515d75a5511805f5503a25d75e25b1b02aad1777fdca257a816ec9b9e1da1b4cc0f2fc27a582b42a5667a6b956aef63af07db429f6e47209ea1f5e58be47298c5e4135;
  0x318eff37d4b7bc8b2b5607e5ae56b5d2b5d8729421d82baec69456ba5c16ff7cd80eda83982e0f1d2c5f6e82d18abb702649ae332be78a3a0bb4aec28d794908412f9bb223b8ba075b4d9aaf4d955261;
  0xd4819e37abe8631f4a0ebd1cd38acab5361ca831f3bd23dc37eb3433ba9878e758c8c001600fe4de6b48cbf19c461e44e706c8cdfac6ed09516db191bb9f3fb9ba23d84edc8035b2e01ff7df0aee749f;
  0x091ed2d3959e2ccda34bc8a9e1cdf135fa438d66b8161615269308896237df3d2499e38841c5a5c837f692b6bf675576856ea1333b81911b8ab3e96b5a012947d820df9bdd18f80518cef1731e5dc1a9;
  0xa4b233c0623d63a33354c71b58b8df0a459a1e8104160bec51a14fe9adc969ae1bc29115c218ee7deb8a3301e57b55a6c99957a9744de3f712efaa25e92555b3a3b359ec153f81650e0903b33373c6f4;
  0x682d2f58ea1662f51da594f5bdd17801a47751c6da50bb55d6ffb5ad48bfe039da58748cf6dff3b3473f0b8b077f5189fed955b3df024da025e98b856edfaffb66f02cb05f21e71e6e56423c7c7b981b;
  0xdb12e64675d1eac3a9c026bed319eb7ebb4d49d79ca5596e97ec0e788535a569fa2a378513506c8aab4bbd1990ca22cdca7232bdfb5cef4ce46dca26a03ccdab7fa8e0864412591c6d4cf2b3425649bf;
  0xc6681c89d4f9c8e5989aa105883ad78fd8fd1cbb58d052027b3804b1261f5e33fb10d37004bb96583557146e3638f55c7b5433aa052ad25319d18d97f04773c579be71ef1efff7385f29651c14a835c6;
  0x43d216b3135867d219aeb8c0700c5a87f2125f7dc364f2bb7c1904abdac59c6a0d548bfa9d4a20429e6759d05726fa9779c202bb625b724c2b04296524bcfe6e8aeaa2ed464ae4e97c3a434a7b74a680;
  0x78970feb564be92dd1707bdb1df78c3f223c2f6c7acf7ccfba2679188058dd8fc836305a670adac61b39558129b66929aa5c83feab37c1515c50eac69e2ca7142918f199ba238d517630f254adcfcafe;
  0xae3178fb5c21eb51ba8d181f10320f6025dcec58ee43dde6f26564839450f4efa17447aadd94736a276149f181f4abc6c05fd91e471ae0458f541db4ac36d76223858c6f12df4294bf154ca3941c4489;
  0xdce5f9f404834d174881ccbf0819d883fed54da0c4d9ca8b631ae5efa8dda3388dd893723b38a60eead6793803672e0f4a22ff309d9804fdb77604d066a0db7e60e74f2f7cebbd34633a773c0d45a6e8;
  0x9310609d7a7cb1ac250022f598f840fbc2d77b858bc2c367e445c3709c95992297bf8728c310e6935f57f5efe88c518109d57bad2abfb2d7318ed3e4f97c31a9141e73b5063d5eab3482ed9b47866b29;
  0x3a6392a9075dc0d45e49798797b88f6985bebfd58484b39cbc9c9f37867eb01c5a8969d39618907dd182263e377bd710e8ed55a71008aa656b64c7f65c37056218ffecf7f2338c19852bb5af9f579770;
  0xa5e49bfd43cc2d0100a0db7f539875666db282d53082b91cd9935a3dd377bbe5dd638bda8936fd3c87a4286fa38d3858347405ba2d038271da81fbd47bb1fb866faf8673dcf709a9626b559f607a476b;
  0x96cc68974d675b95be30462d91cd6d465c525183ce5780424e9106e32b30f75b3677f9cd62500d8140ee0b2e7443ec8bbc3c32c5bd3267f77b3e32eb342d95d72a6260f0819870710fac78fadd5a88b8]) ++ be_enc 78 0xea4c0e6e5f3d97d60a29ce4d6c4704ddb23cc6d447c0629ca622092c37cca96d653f8a712fd57fb7f4611c7dec42361db77f37e76603185bf96a857f585d0531a227d749c42fd96fd7a861d16f18.
(** tests/test4_transformed.kdbx *)
Definition f_test4_transformed : bytes := Eval vm_compute in List.concat (map (be_enc 80) [
  0x03d9a29a67fb4bb5000004000210000000d6038a2b8b6f4cb5a524339a31dbb59a03040000000100000004200000005ed163f97f2e01ec5f18c9cb585dc31a16c22706d1556e17951ac447302e37510b;
  0x8b00000000014205000000245555494410000000ef636ddf8c29444b91f7a9a403e30a0c05010000004908000000010000000000000005010000004d0800000000000004000000000401000000500400;
  0x00000400000042010000005320000000ae38c58f348fe0e8cd5204a424618f5c5743ae84454c43d1cfa2007e589bc036040100000056040000001300000000070c000000b09cd66527dcdbd7babbff47;
  0x00040000000d0a0d0a872775c817ec98952f75263f73b6bdfb3e84ec1a5e8b1683a74511b218f03c270657bdb54531f9d61e8477deb5539849c2397979cdac14609d8b180c57f4a6a1b4d0a38c714169;
  0x8640dc3f405b45f197c623f5914ec5175efcff6f41565e53ddd60f00004f133990a3b8ec26da955298668b745be85ab2502cea9ab55735f20d012fcc3d245ca541b14c643565f24143086ae1d9f23e64;
  0x81df33ef15e79236e3f2f22e95af2c0e804a4c2a8c5daf4764f5840bf8f03f6f631fc38196421f362502812221485db413bf8d44faf38cb749ddd5f89cc9913aadf0a53d3e56727d335477b4f2f47c7f;
  0xf06d57416f25f59b016150556a24a35f02bfb1b67e9917b722d3185bda3c49e46861a4d89cc77141da2f64922ffba6559e799a960407bcef676c370e2111b1c33167fe3c50a6f94a781d14fffa60e62f;
  0xa2756de8778f68eb4e58b39ba1c3e3ffbdbf7f65e9ee80f0f245695359218c71b32574c9a9db05290bc70bd29e33100c7492219c2a44f12e1b579fc7eb98928803a4a3c054e5168e6ae8090fd79a712b;
  0x9d990a96bd3db4af4512d683faab33118cd3f05fc0d62539d5bbcf17736bea434d19b9017d48f6d255f2710c3e2aa2529f643cdce30b0a8bc5b1df4207a2d300b4f2b413d0712924819d885786d00663;
  0x93ce1d183bf31dfa73701567373b7bc9c3824b4eef6e5f8d5e22432b918e2d3420d1f1249889fb0479fe0df7ab3a40f9f67a5249419ff66e4e99d93823ca1a082774bd509d6e3ecb739c4355490aaa39;
  0xc41d5acf673e3c5177c2c6991eee91a9ece198e3f76326d893f4e6e10d12c26abe719533692fa02b88a1bc513081fb2580332c6240125be1a1c5014b53157ecffb51c88df36658326468889201fdbd8c;
  0xb29e8a5ce9d02272eb20cde9c6baa825e62fa2e870e8911ed08dac69a0967202349f63f81e87487bc7c6f94b2f702107d44632d33c2a5fc1e3407542da4ac6ee493a3506c33284f076ecee824fd3ec25;
  0x37996b4d3d8908bfc53533f45e92809f4be77227a0c3127ec33fb453e8ab3f663392351123272016c7ba720bf9a2807533b94f743442932c55cd80c1c05250711acf5866328b5a3f8d989426de0b3f52;
  0x8926cb41743f72b517d94007f29e803e64a82e65a6d016d902c0699ef72bd76507ff4b7bad619bff088ef332a448f9784fd13ee6868565520c88786085809b83f6688359b566af9d7f358ca7b73bd1bc;
  0x90b764e19af830aa679142945cc61cc84f4d5633062e807c38f133d310c641d54cc63277a9fc80cc8ac2b4997760f6ca366c8d6cef8f64f3e8613273aa55d8c13ea21be30997b6b62abc46861b28ddd5;
  0x7169b7ade7acc5b01ea102cfddf8e7cd96e91dcae932f2b00be72ff6068e30da73e779d31c209370480cc0fea647a2ad624d3d064b2f88df98e403d681441724049b6975e61a0c4be4e2b08e1b42cf59;
  0x96f5b6f3d86f25f7880c537f449bac5fdee88cedbcecab58a027da7773c1e9db5da393a8ac685e8382a809bf65c392cdf2e167ed00ef0e5fbcb0ce80f2b6e24c2a5116a894d3631b3a55e406d7e209f0;
  0x396a2a59b3e9d9e53ea86df4d6ecbc78281969720e35fecfcdf5f91d15b95c4fbf367fb831885b7692070586d67d915a3d5588c9ee9c448199ef02358966f294dd9d118ce481f0ebd606f0f7b352cc2c;
  0x3d22ed16ae720b847c6dc22cc431038840fa721cce6709ad5ffb25f5e117276622945583460bbe337817a9d2839fca0399b341bad42fce124b4ae008dda114c794318f092adcfb5eb1864307f0990d3c;
  0xcff8e1d527a5f3c515d586408d35e2228ee842e221d7bf40bca1be087ac5026d6dcc588288b3466d2106d3d5864148d97c2b2fbf633c0903d4f430004e2c3b0fbb6531dd99026ba37918f719ad6b10bd;
  0xd8551f8e93f1121bf1826deb94a0e758c0a6c3924b8650d960720b92611494ae2dde71fb52fba6accab5cdc0020161cd6627d38752349cacbcef0ba998761d9efd05a8066e23e368ee03fdc78e8473f4;
  0x2e74dad336369c006e870c6e62a484a91af2729504dfc0f632f4b66bc1d55522acb7db21ef3993a9a6cbf7fecd4c354f4e786a9e03e295203457d47ad606db51ddad47fa45b720161fe4b02992029b13;
  0x3e5734cac58260ab50301f66c7ff04badbf855484583eb3e8731b845af34a9ad90ef46c4ba07d379cdca17b9da7013d59e54d976ef6b182ff87544cfd4e700b8cf2ec904b12c7ef7752fbe1f21ce615a;
  0xbaf1043b75765450f0f198f4b73e9d91ac3cea93e155cd846be596f7cd78be3493f60aebb63e582051b36351e04477a2b4d8e519c90e8ca1e1be6476b9fdb544c5d92efbafbb71de4c88debe2b2f0a46;
  0x1ad176fa05f6cd6eca07be3deaaab1b9dcafc22f05ebc21f112c2e62867f9261341cd9116eac07442cca9db41cce4f7eb0cb1c2463873987b21683c935da65dc5ebe53414d3f6f708ceea00d8835c0ea;
  0xb16a7dc594f2e6f7eac76ea3e22f703baa7f9a817d3c39238336f8e23ddc89334d2f14091112255433fbb7f8bce4d7bbfe21ee57b21e83277c6b19b626616a708c76e3ccbf733b1b67e48b3bb6313802;
  0x04521f9d0c3ba1d7c8efa4bc2a97313d1f10414583ab2615b9f3be53c23655c99d5b380784120a729970c2376be05b693fb63be285274790885b123a6d8ddec6728051be5b3094f3612c255670b2929e;
  0xa187cb3109288717f0d2b88825fac86ce9e87bc347b5cd6837897fc74838c0335a31bdcd3f3dff644e2307a73c77b6263c71b7a3e5a7b3a12c0096f97095e0662a8ba80af4db643c0ae11dbf753ff3e7;
  0xdd7830bf2207cdbdfac177a5574010386b2bfc1e26cc9d03235325b05ff35b8a91412430bb21694642081161ed07b13ff4e79703082eb2a28e25a1ce4cef63de185cd1359028fe491d5edfb8655f392e;
  0xded9aef273087e3248bbfa4d7854bfe7002690c42092d6c7e7b11bf227bbb7666bc9b6ce0771bdc0b2380ee306d57122c5abf89b1f2fa83734bc10a0f216f230217f4951f5bf59a4f9c5f84bb1310895;
  0x171a2354ce091749f484d8020c7f4d634fdbc28ffcc7bec9b892ec9e92aa84316ffffa7bbb2cdedcf3ef39c0542182a61471beb07c8c23020ec2402817e25d206664a010073abfff918042ce5dd9edbc;
  0x1c3242fa61b7659145db0afc1ea2074149a40152ee1c2e23230940cc5de40fdb49464eef4a7401eebc0738800ad08c64af54eae6accf200241f9bd43a82ce88db3607f627c4b179003dcf99b2bb2e3e8;
  0x054d982b0540940c24b2ff3b43a5bdc61751d95302ff34b815c5f63348d914544331127e8884d2311d62b88d709a816f2ffa9a364a9acb1f3d06c4a7bc0ff09ba981e25e25f4c8111a8c3e5df0a55db1;
  0xd07f29a8a69d4cd6448ac4345b8f31cd36db6b2893f5d3d96ab0e473595075b6aee26483251250ad0483f9f521882b5d0c7ed400fed5529e52286e1a03ddb6950336cc040e7b47e1b675f306277c7321;
  0x8f49835c7f8e8dde4409b41c6c6bccf969a93e545770f277fe2cc449aced9d1db56e965e25594dc377423e6f2e103cf38972b286218ead772f15e78ce788c267c01dff1d89dc8d9025d12b8622a4516d;
  0x3b16832762601f4cc88eecc0977a830ef233bfd60e0e4c82d1c2ddcd80b4b5b36231e108c044f16ae696d9efefa3d3996415348d463140a0d01a6a4a55df301b0491a0924313376a81826175e4351ce3;
  0x00a6a3a425d90a1f62dba21bc09177375ac075ce479ebd35a2edb624ec5feb4cd7bf151723ba1649c509352ba2be3588ea2fd89f41e9cb94705fe569198a7f11abaa0ebd0df7a3e7a427838be5798055;
  0xc4c77c844a20ea2c8cf3fc738909cb59be1c7e823e970709e116b6a969ed66ac29231d5e5b2f875ec6fc8ea7b01472a52d7e744f098d272747312bf0b64ba356b71c96eb792e25e08e2a17655870b628;
  0x2a4236ed6d72c09005b1746775b3040714a73eb218e1edb53aa71e6a5c72c3c24289d2e9697e40ef65aa982018054e52adac773f319781d8718e91831140b99d349cff8c40ceec50558c8bcc3e6df2fd;
  0xdb6371596ecb74350a4783c33471f58d0b67ea891e124f5138c6d9e4632338379c57fa56bb7598152d7985c6c559aae7e0680fac56f7dd11784b1f9f3f7c82f7e2aab7b3ffe2f95e0d8c904d80049076;
  0xc8fa7b06e32987973dda8dcd14532f5947ba8de4b4b01422847bedfd9217ea368c875c25a690394f467044bbbced6430ad667b8fc82bb08f7dfff058c0a76ea4c72ca777188dd1230caece3a1633e0a1;
  0x0c456e3d77860fce34c107756140f55d1939a96f70275f6eccb090a932fd57fa2abac0e4f4f8e1310fa781902ff1443865eaec4c8ee1d1ca3e037e19d477d156037d2b8f2026489bee42b6cf6548f3e0;
  0x0783e345d741c9a8d7cc1fea894b90202ec9003415bf21a5dbcebd1e5590a4840f8c36ed8c7df741dacacbc5bfaa4d42b52d587221ba59eb3de942212a0b606dc4bdeb359dd5e5355d34c5f632d7fc1e;
  0xe31b6ce70ec860137cef0fdf138467864a8cd0fd392898eb6b516bfe546d19f49adfadd0220178ceae357a14f78dfd454bf29d081930c6d5da2516ac760e1ea40f6b2930f3c2d511f757e58696902a02;
  0x9ed79d5cd5793fc044cc18014d67ba4b47744ec6dba3caf99abe439764fc31518a8c684c42530d1da68e2b5529107473fea75f0633db7a0a0f2a1b24f6156acac431689e404f10041d385957c6023d34;
  0xeb453fd49ed77b471c46a647b256c6036dda27f914f3c1ec20f7f6de37a407c04c6d2867e8b3cd2512b957096d16bdce6686dfaddfd2c915be0931817054f56bbacb1eb95379e9c1119f43c94dde7692;
  0xd2cec62be088a3e8f2aeb5d7d0f1e9f3b58659110944f08767fc4f0a08987d979835aeaa0ba27ede59f781758ea7ebea1a9265ff1a4588af771da1b667a6c3eba72aa427457bbde3f2f59622569e0125;
  0x36173585b58fba7baff1f50c3975c98d5f49423339f3bdd959444a750893e1cec9ab0f921737083ee9afe3ee427ecd284f289af8097ed96d66ba8796e50b8d2cf7961c726fe600f586df809d8a0de714;
  0x656b114015c8ebdc4257735175e7ca4c5d845a924111cf44bb9e6134e41e66bc0cd7134564938b11e2d9bb9acda142ef8d929770cc560ae4d32d1899c583ded4f8dc6c7145c6e8ee7257a3754fd04ffd;
  0x99c1248bca0d229d2cf6e0918c6e95d1422d2142132b65dacdebbba6ea6e2b8307ead808fe57fe72de3597aa32d324b33c198e694764c6e61ced49d5f1443be463bd5ea6a9b7875ce16ca4ca9301ee90;
  0x43a90a86b335ae9b982ffe9490c8b9352c786ab0a93bf56f4698542e08f040e388d252b572dc38f9af1ef2981c65c0883c389abc130f122661cc7f3cf2462919dec2d395eea71c9999b8e50352837128;
  0xff4e0519bc8002a309fa19215c85c160dd107d758a5facd4d271aa594ca1774a55c3b3f637a0edc41214f1a1b268efbdf10d2bc6d13220fa6bd0822ea0ceeef80e6e8ff1696dda1aebb117168dcade87;
  0x25d96197956c6be59f07da58a2ba98346fc9482ae425699e7cb242fb32030c666033eaca70d677f00c8cc3f31e07cadbab6efafb558371d764d994a2f0e0eebaa594f64a5b940204a633f90cb6ee031f;
  0x7660d891ff1a42dc0eea2bc7930e70e41e7288cb8805652be44941bffa86b0f47f175472d0a305355dd25b5d8102f733643f6604d96452f76c97184c138649cd13cf0b31acfdaa04e2687a0b3009606a;
  0x03be2b24ef3108d58883d4e8a43c3623cd3d7bad270fcf998281356366ffad5919b167671fb79ad4550895a190026df9b129d04546f915f47e7e5e63c06b292d466d83104536928bddbd6a69b68afced]) ++ be_enc 39 0xde37f27d2c4877b643781680335ffb2802310a7ab25cc67ea2690011a0887eb70f9fa700000000.
(** tests/test4_aes.kdbx *)
Definition f_test4_aes : bytes := Eval vm_compute in List.concat (map (be_enc 80) [
  0x03d9a29a67fb4bb500000400021000000031c1f2e6bf714350be5805216afc5aff0304000000010000000420000000553ecd4096c733f66f969829fdf9a4d1f9d0373f655f7a5b53ebc5468f37159b07;
  0x10000000e5e5f9ec529c4b2eb1a5321186d24a0e0b8b00000000014205000000245555494410000000ef636ddf8c29444b91f7a9a403e30a0c0501000000490800000001000000000000000501000000;
  0x4d08000000000000040000000004010000005004000000040000004201000000532000000027b5be50e5ade1367fa38c8058dc4c01a33d035c03c86a61971808777c1c92720401000000560400000013;
  0x0000000000040000000d0a0d0abf45cff35a8d87c7ca1bccfee4f03aaf037d5bedef5169f2447bd24129729d24fa2130a39c80755a02dee9a69681310837e5a0c7517b4ed0699057e0a48311a018b185;
  0x6cdd1cb76805c57b6f7836797519f80c56417b60631a4d9cae889744ae400600005824577e58cf594e9756875d864236d6a95b7639569789db2a904063855eab06f5649035e68e3bf5045243abeb05f8;
  0xccf2038bc31ae929af2bcbb2cfc2c88ff619a5e7d8c4285acbf0fcd962658614da49749a282c505b415f7e3c4c6f2b5a39daa8f842821eb1289b0668aaf335ed36c5751bb5ed1dceb909b4c50b3ef659;
  0xc3c119aae832e26b2dc5f8233c28a0e4ccbce65799bfd34c05e1c28cce023d0278e8729ed08b89ee789f2330bbb53a56f2a186d97630f5a417db5b0ea96c62f4a18691c9be4f114d8999fc5d5148a894;
  0x596b396b497448d7a9e7d0b80a6b0e942e058fa75d675b952c1a9d64a4a2ecb50f7f7459f669f2e339c10056121783f77aa100be8bcd17504a35c5850ac5ffcb22c470818f73362199a5cf52343cad6b;
  0xb1431451a0c6db2d303f243244e2309c42288d9638e3f93eb1491dc73198e0ef1c50b124a52dabb3a22963056518172b1746e4c8fc305c3ac0a41f76d1e06b5ad69eb0910b807e827490498312eb97b9;
  0x26ac979be0446bc706f052fffd4555ddce72447e4e6d47cfa3c92a9ddb7d8d4fd807c3146c4161f461e0a90d2346e2f957dcc2a7948e37865347c99010d00551e942613ec31cbbda54cf0f91668a3aee;
  0x944948587c3959b7bf6f4985db8c218527afa9f807c6c24206d0de8e59f2743d95674a6c707f4b871a2f49af275716faa427e33ef4d51d511a5e18a7bdfb0e9be3205fb1ed07090da4aaf2db61435b34;
  0xd6006c30d6113d80ccf18749b8f785e9cd5310863bb51ca81c521039d1eebd3ef5d7ca7f811e18b1b845b82771fd8b54b641347297118bcb767ef3137195463f388de6fbe8583555d3f40f0787023542;
  0x43ea793bb0dd43289a06188a0c3134613e7d66b3095ae2128cdb4699654e93dd56ba7cb631dbe4b2aba903190bcbcf9173adbde25322c59aab50238ccaecc125314fed8e7415d3d0ca1eef2f04478d22;
  0x1cbecd66d698005120545a6ad58d79a8b7b3f43963bc66fc5299afa489dc3cd4874c36bf5da7fae9f2fce1b7539d21d450b98bdbbb3f0c448dbe7d857e7a19d1709e563ca7738486eea1ca1d0bf8797f;
  0x005ded442a7e7f8a493b5d1aed5e0f0070f6bc3fac480f077747175c1bf7b5a7f3bc0611fbcb5c2ff20ac79554fe5b99cff93e5701e5c1ec4658936af27c9f6ade03e2b642a8ebce842c39c1ac3a89e8;
  0x515caf66ff7d386830894a045c04ad7ce69e7fe8824d13dc04a7ff492017f3154ba76b08c992fbdeb8e79724290cec17f9c9a64353b375c1144096440bef1ba86013e48e129a18298d3c44e007f88f95;
  0x692fd362ba7f7c95e5aad09e0be387fa8666b658643083f2ef9b86dcaf94656854e47ed02f36f355544d2fb249c4a01b3c6b86f595642656d38f8aaaf145c1976c81847dfe7071f611a5aa4d52c55850;
  0x53ee046585e482da5479842ab696aaf778e073056fd83b21f7287ca3c0f2d7ee04e961fd1544a768c84c1d415cf92d03a99213773b99096f07a72c79029e558bcae05fb4c9dc43a750f8e2f07656a496;
  0x5b297c3cd7bf041abc1ef060fab36efc5fe03431e04adf4d294394ef37781afda9436159a399e7da440b89c179dbe63d2a98cfafd48b7ce4d42b55ec4b1372a337e7e6969e4f0fb313a6c10497e6b60e;
  0xdaeda45cb431b2e8026d3a8eebf6b47cd3597f7dfa1c4d24568200c9ceabdd6a7bcbe86310e98b23cf08e19ea557a42bca6c11ae54ad3d34c726a86f55d7959900b59deaf94a6061a24eb8b10bede349;
  0xb02361f3ed1963c4f1665d75473fe610bcc38d119b7dd1b198cb775140cd19830a2bf9433fb4a4956a4b689fb7d6939329b2ff476a83c6e5794b199be34989e5d49459e61783822f9a969c89ef55da13;
  0x9b47300c65ae145e8404c2e5d7adaf40e8ee0a5e06440714ba60560244fb25887d79582cc587ea0ccc197acc79d511dde1afa2be5b39a613177b4a26cb0657f80c6b6c1ce5fb55b914adac03dfb4e46b;
  0xdad9e8f53ea6ec061499227fccd4a0e93893a8424fba6bdeea3746673ec31e307ed5c7d92b95a6e886797c18c45454b3fb75881a94436104eca5f17fe9ada6e32239e3fb4993104de1a26d9df0665a05;
  0xbe2f9070218c3e50499891b64743d642c4ff3899101eae6ff4f954cca209de2cdbcb10dfe7bf62a8e1873f0c4ad504c9eeea344778a16ceb81106aeb3b175371edac94866b7cda507d4006bbc4a16751]) ++ be_enc 69 0xc40b0e03e6b0aaab319738f58b2bbaf55a6ca8c2a03cc34f5fd55b52c2efe28dd9d4b69dda89c8dae6e4f3a3dd25b370b291a4a517c3a76f537a21dac062d16ea400000000.
(** tests/test4_aeskdf.kdbx *)
Definition f_test4_aeskdf : bytes := Eval vm_compute in List.concat (map (be_enc 80) [
  0x03d9a29a67fb4bb500000400021000000031c1f2e6bf714350be5805216afc5aff030400000001000000042000000058642f94a8fdacc6e250530584598dea2dfc0750c7513decb09edab41c075ff007;
  0x1000000026b97b19e1dac485570ff122e2b32ec10b5d00000000014205000000245555494410000000c9d9f39a628a4460bf740d08c18a4fea0501000000520800000064000000000000004201000000;
  0x532000000024568c16d6d37d275d6de5e53accc0fa2ceb7ba4fe605968bcbb0eaf93de0f920000040000000d0a0d0af272d7a2841d8ce6d823957b3be369187dfb5e48d3b73e14c302da506de29c3854;
  0xc1b6e155d4fe1dc51577a7c97998848c1b1287cc3d5356dcc3fd2489119516cb159007839c44a1c184ec1b96ae1376c7dda28e7d8685899fe42be8081a7d3a500600005268819daa5aa850c9dc5d3f64;
  0x3e3216db7081208a7899bb9212082e35ed976e7596f91d0027e2bdc1b2587e38005514e10ca9bd57042f00f13305fbb3ed5f3218aba9b47f68a42a2af36c7242f92e56c086f8123452c3c9ad4671c125;
  0xd66238a394e8ac9586511a7087c291e05b9600e422d105b42a228140f94a7d6b725485459255003ddbfbb3292750760add1b8ca3ad8ee51a107fc1bbb2ca7950fe5ff2ff209eb31d15efd1a4c1012b4c;
  0x690e903a837d13818c8577b95e1ac9c052fe7e86e4320bbc94c73dbf68331ed796e5b234e1c3358ac3f19aa8de502daa6bcb2ff5d00bbdbb5f9486e7d317a30b1945a0905e2f8331d9e38758e15463c2;
  0x280e8052f0ca2fc038524fa0fb2fd7cdb0a572cdaad2fe3457e8035ebb8f5a79e84d41196ef842a224bbfe7590cd1a39f36a070234aac0c8c528095a98e14d40bcce6d3eaeae714dc98451c10fe84cca;
  0x59347754653c61b15b60b1d5f25655629a2d6210d56fc17036f84ab98a40940fe151f66289b54c3e62e5be5f466e0cf78260712cbff641a91648cacab56456f2c40864862cc3eb5f9686fecabd539d1b;
  0x43053e8e82c83106afc5461b47ba216acf2bb92f97af4d5074a3eb75be850049b2e337b81cbad8d7a39ac9e6a4a14962b0defefa14b6869b98e59c51dc5433c2d96eeaeadbd855b43896f924db892416;
  0xc9f88552b0db52c24634481a1845fb1d4a2b59e724da5712291f65ec5f23b2be3cbc3f1c981293e6aed5d51abbd657a6958a458e84f9b38ba954705b8e837f65892e0e630ce523b2ac1c45525795cd63;
  0xaf4e44f9ea1cf6dec8ece82e8adf4c29cfcdda67802e31218df9096a6ff665b6fe17cb90b39991cfda8f2f39ac59d7b3666123e4602ab3fb713d87a224a9a4af50c996647eb3437665f2a3b2f3704632;
  0x0fd7fb17d0113f36ad31d410fc6788537326bac385182cfb71be99f4b55d072b131b13d3c178314176f2189b9caf0b1a1fe0abfb99d83132a68c719ebce4554b943c9a844a4f248c01b5cab3d25b1975;
  0x50e61a2e759b72510e042d0216696bef390d464f045bec2a511397681ec4a2ac539357b5ad0013374ff408b0833b795e6cdd8105608389831dd0ad12de17f926ab12036c35c5ff8a0445f3e6ef74ad10;
  0xbb23a4c9ca423f2d3c26c0e56c4741c443f9ac67e19a17830663f46df98cc62df298e12a6fca6ffc1b92d41603ee5edb8012d32b72ad7bb06e16b13adc08e5d0f58169ceec8303c89928719fcc4255d1;
  0x950af195ba667a2f6e026903dbc16f074bed5733771895bac585790c90c3ae12c990f5f1d12f8b5609d53893f91c7dc74d338a902922a5bb62ca911ce05304ec80568f36740f5048384508389b37cfb4;
  0xf0f414f1a46e94e57339b41a217b5a9a5b565b6df2a37bfc78d21c631160c4048a1077307ae0f5d36ac84bac4fce1de8c01fb37f040c81d3cbd72fbab980c5a9133992d804e4120bc0056d82a914ddba;
  0x2dc99594621dc2b3c94338f584d4817e28cbd660f1287502317cbcdc70c046c454a1674d591a8c4691aa85ce27b1e6cbb935646fc45de1820a840b2cb4f0e6cea46c2d54f408241a73ebd935ce697542;
  0x8c69d776a9a6949e3409a6b264746828e57b28bbc131cb8602c9a5aa11aaca9c2a861a2dceaeba62d8dcd91909d963b29bc67b10fc781401f9864e05e511d0a30b4c7661663591b02ff3fd396310cbe9;
  0x24c8cca378b44bcb6f7b54d5de82d878f0fbc5f6282959adce934be9ff9750902710c588a0e201dee9cbced055b132e455a7e43670e83d6197ecf0b0a5b7424ca7d9e9e8452b8ec1ab11c9b17e118591;
  0x9f02dac0ae1bf0072b4846a025472f18a1724ffb3f2c04eb7efc8ae3c673788de50240f7f6a4a177155fbafe3514f9d64f55809802e477f9b45763569363c4949d90ea3839f8c046fe3aa93365e00e3e;
  0x5f0c14574641e1e8d038f9877e61ff2761b9a64c5749ffb5b93f51acf5d4f3a04f6e738b0469e4236bb0fa769478cd129334ff742869e24b4f306a398e103605df53028ec68c87d9563fcfde7f49eb8d;
  0x683e6bb1deeafa166e3e502227f296f783c4795890b6192066279c3a3addbda7b27e3695a7c772bc857b21c0d02aa77655871aa05a06ca61e007d63779d7c454f94e0c49ffa93c1215430242dd92095e;
  0xba2b8f4e72531a11e9f14abcd95c62a4ff6572e6a4f2b302680b56409f632f33095c24bcb64b120949fe483a52bc758cbcb20c1cdbe6307556a4ade39bc565691790a75488a1861355247cbfb8027424]) ++ be_enc 39 0xac77c148e4d051eef800ae2326542aa09f2d5215533aadbfbda4f142a331608893585700000000.
(** tests/test4_chacha20.kdbx *)
Definition f_test4_chacha20 : bytes := Eval vm_compute in List.concat (map (be_enc 80) [
  0x03d9a29a67fb4bb5000004000210000000d6038a2b8b6f4cb5a524339a31dbb59a03040000000100000004200000005ff48161ff4832ff3c3c407b7e293a8321aa345361f1f45d4278d06a8048b45a07;
  0x0c00000010db0589c8a8e0e2920088c50b8b00000000014205000000245555494410000000ef636ddf8c29444b91f7a9a403e30a0c05010000004908000000010000000000000005010000004d080000;
  0x00000000040000000004010000005004000000040000004201000000532000000002f7b7992f6e1244ce1648037b897883c73e568e67389355abdf059960c5bc2d040100000056040000001300000000;
  0x00040000000d0a0d0a61859d1b29909fa5db8143dc7da853912f5244cb82e7c849eae67467cb5e98113a740f8b3ce06a1bf9acb8c2a6a2360a25e1de7cc2bd682b316ad32199d30da95215ccf4801a6c;
  0x1c1008604a465d94faf58cd05219fe735b0579bec9216d51f23d060000822f233daa2d2a107df319448d5b619a7ffaa0c9d298126f7320955187f18cd8c307745764e77da3f632120c5356a5330badb8;
  0x2a8352389d1c79d01d8f108d5c4acc54e8f0b60339adda4e1e3ad443aa6ad84732c48bf1f62086129aea587fea330f1ee4a12e2a80b9cd4aa3b61efaf15b0037081972e6cd60f893ae56b4efdc3d9718;
  0x7a597b916ad1c04eb1b76a9e7147aebeca08f941e74973ee0205942a85fe9db15c986814995112b5517315067b9b87bdfde0527e949857005b273e07be5f0880adc16553a5fb4a90b5a31510da0abd74;
  0x0611904ed46795af21831705a6cda2a006a622d1a4b5cb45a785a4be09c9a6347b68021f775d2e3ea664fd96338bbe83b1f9f1d6c682cca48378c06c55261fc97d0bd310bc6e1dbffab2eec89cd4b15f;
  0xb37a83f09787f78060a7422a43b52efff114aa4b9e5f41c729c293fb2367b8ffb65eae506f5de37ce4fbfe8866d00dc99cbb8574502bbd0f8802e11edf48c90aa71feb86880e443e026d8f723315e00f;
  0xf76091b23afac976a786bda1f7cd7379aee34d527ef45a45c1a4fba4d0ef13c0b7718832ef175555be8c62d8f6e6754675c6d9a80b5bda7bc065ca6c35f6b9a49f22053457529efa1c52ee890f884be5;
  0x5c77f8d73bd2fb96443a5c2f9cdb13dee4894e54317a9fe76a927d5a53d83cfc3b1054b612989c3baed89c9d5f70f9c13c7a43d5b7a3679bb99f29a3556971985912f17f6f84ac6a37382647f7fb0197;
  0xbe99fc6e56dbe49123cd665d372c9b36317568f24641662444583ab5ac43254a475eebd7648ec095387bb708718ec578fdb790aa7f5bbc84a3fb13d44a25c23270075e727776df7e248529cf360df8b3;
  0x31fe3d581ac9bbdb8252a49718872e23955179d334045210356a893e004d6d70dec9b6828d7822578843e1dd590152feeb8188c73bab803bf2048d14a82b3dd6a84977197c60baab61a10c4afc6bbea4;
  0xb7583b3d75dbc499ee112f9e9d7daabf9ef9af17fa6bb316d63a017dd1da2be4334bb17293b01696c55dcef1108c9a791ba8355c197c8e1dc9acc1fd865daa27caf77b51d156675c877c81435b46ff22;
  0x78a71a4d661eb003534c7a774e212917b86f4e39fb2dca13968e5a756474066e861f2a6ab57d432bcd7696e6535f587c0eb7d1f45af20c8fa85e87d944c72f3e3d2dd99e0779ca48834b4cd8fd3ccf37;
  0x21ab3d77a6f670f17852973a8619dfd6117b49724d05893e44c351c5fc2389ba644cbe90c7f25cf995d8251266c054c5a45c62d7d50800f45ee8a49f49c105893ec35ca7e7c11b417bd4b642d15e0bdf;
  0x193e67c2c3be55b81b6af16fd1aa8c0c6fbde1c6a002c5258e4d2af760fa1acf8d4386e1f3095d39b33dce29db9f4e2be612ff5de468fa761e2e103c44096e61a4a8c69f3bde8f4b9adc34e535c6751a;
  0x7d6f3db51a0bca47c47bf9a28ddecd9a092a0783a40824072a4aa6a140fc82c5eea107707a27aa033da74c98e087c8b6623f77c48ead4916fae8c447b25b34adf6ab62bebfe7ad589b59307428b43d56;
  0xc45cf3aa4e72c82c8ca9e081daaabea755395d2f438efe89f8ecc9a691f308eeb6fc6c2cd6bb78bea73bbb2f42d74732a7376ecd6703f176f36ad906b47c2cb944cd1439b7990fa0ef12c6a454334220;
  0x953ea2ffb676ed9632dfcd53dc533568221114b8a4fe83b803602450c516cde0b9cc3a776fda12840cd313bacf58e2d0769c47a2ecbef30aa301c9189a0b4eb20883e6d848ececa594bc4e0ddfebdcc5;
  0x89bbdabbc8a8c4c42171ea4f6afeb0161b847b8af76e528b3018eb010b947c65dfe4f6f746f27d6c819164e245b4892edcfe6a85c5915691992a3feadf9612bfd41a717194aa3d9c019a81a1a400e9dc;
  0x72a73c6e538bbab9ec3534f9b71545d68740a9b91bc481d1b243d50db421613ae638c15f5d749e0b12d94b5aa8c35025165a46214b6f2089cc096bde61b48a9e266beebb194e6bddc29a13719285e600;
  0xe57e6f0fc09d0f3ca4df360973e8ba0f14134f5a57b03feaebf6578aa6d2c74b009f898c70920b850d4be6fe00f23a9e4edac69e230d7d5c30c2cbafb6ef9c4c7e10b2e5b1009b1104339217d15814de;
  0x094bf8e559577a9c2a228d6d86e21a5f1635e01595ad8814241d41eb58dfe95f441a822395393715abbe095951576808e2fd5de75cd32f1d91ac8b97eeee4fac9cbe547dd810c608b8605fb2d533db90]) ++ be_enc 62 0x2780b5b2aa451714eeb52c7ce8faef22608254b85bf4e2e16a22472a32a7069258710ee9dbb840deb33dbbab9f5128677891950155f465068f7f00000000.
(** tests/test4_twofish.kdbx *)
Definition f_test4_twofish : bytes := Eval vm_compute in List.concat (map (be_enc 80) [
  0x03d9a29a67fb4bb5000004000210000000ad68f29f576f4bb9a36ad47af965346c030400000001000000042000000019254a48f2909b46531b3b685f6e9823c41f3aee4c94fc8190f3f3d1803fcb8807;
  0x10000000dbf202ec2d5d1bb65dc00656e0bc75ba0b8b00000000014205000000245555494410000000ef636ddf8c29444b91f7a9a403e30a0c0501000000490800000001000000000000000501000000;
  0x4d080000000000000400000000040100000050040000000400000042010000005320000000e8f07189191ae67156ad8ed82c6083cf9ed1aeb366c81e307a688a41233e6e8e0401000000560400000013;
  0x0000000000040000000d0a0d0a08843351c02a73fa0c9ca473109e3cc35865bf408de23ef68451e3df6a06a0fcf89588bfa441c635aa6207935fa90d9a687682eab5281f327ae3c538674d5cbebfc4b9;
  0xd036d24852397c998d13ea1c818c5a5bdf754ad833b15c64fac52ec0b9400600005310c58b50126c9830a29f9b52802dfb797dd0c7b7ccafe2a9ef0260c309507bbf99982cc4a5757513bb4606cfcd7f;
  0x1491b1db020344ac006d9a7fbbba31f26cc4258d590f514df61117a1bf649cfb95fad1a4ebc475eeb26234f989186472019bd9f559b8b845c5ecdcfe4095a206687cfda506e7fd4d574475d2b61cfeb4;
  0xe64d47cf52e76e1e5b4a9dfc859e78c08f36e2b472d4d11c04e1c936d18146d33e0d3e11e10482ef7b41e84e0af20c936462b801ee064df4f15dba9d1bea5a5a15a17e86fb3a25ee44ab2573eae17b1a;
  0x57b3207caaba0131755ccf3a85156ff37e5c521c6ad0fe3689a50e6e0dccc4c76a4eaf9f64849a881a47673947543c80f9f7de009b9050a25ded60d08b0f757ee66f94c5d3ff9966de97bdbd9ebdd293;
  0xe7203300ea6e8de3e4c5a84027bd27ce820a6bcbb84ba0492627bc15798aae08b438ed0661508bc2b93ba703ea926e4f8aff80edd7979cac40efec16d3079fa65edbfda80f006388bbb3c3c693476b26;
  0xa56c7122021472c28f7915b394cfe1936ea1e33880dc966c11b38f0b639ede1c9e58dfef3e11a36fd4d1e7fab9d9111f7fdc417f4cc0b51b55a3199972e56cb584b8542b702b1852844151f8297306bd;
  0x911a7b792d5cb5bbcd0051a480965062f7b0d93b1f4672b455504d581dca8acaec80a18e2f34627a230fce25740d378b23a57650a313a60caf01d32bc23086ca89170ee08bd44226de60345006b5a736;
  0xc6d58313c78af60856586499e2817b67bf6d145cbd717e92349934c3efc94bde0ed35fe3fe7716b625e41f50aaf8dc12bccdd3c6e826bfeafea74f23862b2b22f0250f2ef6ffa3dfe1c913f06bb2f000;
  0x0ff8c6249ed80e616c802cd7fae0b3146ff67df21830447bdf00bd864dcf7d0f7816d56b0ca08d3ed7c2bd15aada18febd0b2d4eae1e862515bab42d275e0c30fe0170a11ceea43a21f056f597745c15;
  0xae5627a0a0777bcab881009141f90fe6272f7b69050fc3ad31b9eb09ef7690188194b8027d0be39dcc908987b73afa5ad6ebf529e58dcef1be3b5b4cea16ca0c856387f45da6a9b855cf1d3c2be339a8;
  0xb52860d919f3d63b41671c0c81531e1dc29a2ae6312792214602e5c1928101a828331bd6b12e16032eb0eca7dc696ee1dbe80dc9aeab11c52b4d25a71695e4c5cfa23496aacaff3ca2520bce9a652303;
  0x096fb1d629a69cf51417155c972fa3126826fa49bcd0297060e2a642a4c31ec7b4a680429be47076692c088654fce73d655e581762fd9d40a6df9c7e5d6f27ae90d859bd22e6cce1c0eb59faeb6c3691;
  0x8c2a12d8062c6b4f67e4dcac592d6de000e44b968a5b52b54c9667b2a96273efbdfe9254b1e6474f97fec009e6f7186582896c35718026ac5231f2ed8a243020a2e75fb42da470df16af7cb9dfcb70c4;
  0xb7e6fda60ca7d5a1b506afcec20e42c2084f63f83372b4fc7c35d7ea26603a207370b22de8479f61777db15ce0773780bce5ec7a636d7dc32d4d232e22989ada4e7bf1e05147e8fc4320dc7c807caf31;
  0x0fcd390544e240f23d89c0c37c9a5ab52fe5c644649094edea462cd61a2240099e15cb323876ec00faa2b0da3339701f83f42aab732fcefccc9399089d80716e2a95cc8c87fe0b9ea7cea62dff0694c6;
  0xe03cbe0147faa63262306fa91311d03fbbcf6ff78a3f76aec7af43ba2ad96e64657138626fc8205735e844495acb2e20f6ca6fae89f3741b718019ff708a1a95bf69a64d3b3abd9448ee065709cece0a;
  0xb217fea1e4bca4d01631ddd246eb797843e392c03fb1f727563e0d89ac2a8d21f5f754538f43917329a6a36dad30310a860eda636230b44e6cadebc798272cc804860855178cbd23363cace2c79c7347;
  0xb444886a319cc1e4d7ce3a3b62f1c85936a7ae6c8a455b1aa36f248ae0b2bbc583b20fc2cb9e17df46276ba0424060f95fcf281e718feb3cde43b3d3d9f86cced2c7bd003f0aee4c694c0c12ae94c60c;
  0xf4217326d632ba8ab6c9fb8866f266433f881552ee6f214368deb3f4da5b48bfa7c5ee5ec0bbacb074d0e287ecfc473b4d5ae4071e74c0fe9fff0b2b7b3a5593bacc645174b4f372c1d0974a25fd6bab;
  0xc1816ab502f8859fcbeea23dc243ef8a79efca54da88e54a6171608a580f51f6c924d8fbe7049dbe4bfef4bf512007e7a34dd49db6607821701e49d4e96fed86337f314c4687ab0d6e818e629449a6d4]) ++ be_enc 69 0x6555c6244b016efe8828b9c56316e72953fe51655a5859c1faf9c6c46583de9517ad8d30928a286419f59e0112a917ba52e78b009e3ec55cc776ff79cda0db40ee00000000.
(** tests/test4_aes_uncompressed.kdbx *)
Definition f_test4_aes_uncompressed : bytes := Eval vm_compute in List.concat (map (be_enc 80) [
  0x03d9a29a67fb4bb500000400021000000031c1f2e6bf714350be5805216afc5aff0304000000000000000420000000244fa9ecd59d2d862e8462eceff144081f156380c3a1acb18dba3e573e43aff007;
  0x100000002c7f5e5b4bd68390aaf8dd8df8245d950b8b00000000014205000000245555494410000000ef636ddf8c29444b91f7a9a403e30a0c0501000000490800000012000000000000000501000000;
  0x4d0800000000000004000000000401000000500400000002000000420100000053200000005340d471e316b26fe5e7e81216a19f5e9c5534a30992ee6555521fed948ab87b0401000000560400000013;
  0x0000000000040000000d0a0d0a3ef2f0d21810977fa5c12822518a1fd63f8c64edb1ad2fd4dd3ab2aa7983407f64b3d7bc8d874b93ca6b5abe3b1e0ad78a067d7bfd035584b29c8a5cbc917eda733c83;
  0xf0654a86531fc2aa710c289e2f065f82547d516ca5142bddbaa25b75cec00d0000cfed60fb68b8095a521b6abccc7208005c26d442aef50b23545cbf1304c70b17f665fe60750520146abe03bd995561;
  0x408c679157245950c5cf42593a5411f4f728a989932137569306bdeb8859e93da86840563dafdd878106a95b61be0bf77e5c356dfd0a9b8990174c6ceddbbf4e29ad4225c848e2dbe7415dbdc2c6ef7f;
  0x444cfe5eba82b940df4e02bea5d9bb2befb81285a151bd629f1604495ad5d1b312877605ff9f8c780b24009d7ecc6989c33d1b58313f8a77434f52e7a4f530499e2a9bdf9b34ee983ea82d1fc6c45899;
  0x72570d8e1fb4139f2d8c7817795a73e6a11f82382cd348ab994986a6c02e28a70dab6dc3b84f01a5868c08e76a21ce06bcf7215ed99a9847dc21356881b2e861dfa5c1175d32ad94187b9c99e44fe760;
  0xec153796ea3b614f78ed9644b3529b30d0f00c27d2d20c473a0e7e956f458467738f30322820a942a50bd0598b6701c16c7f62ccfa6b8e8237478596bbdb83f4af9ba3a68f810f27bac964b2835bcfa3;
  0x8b8547956d6d6d661ca7a7c73666318bbc48d3731853669bb159db60bc259aba8132ffe92e668cae550737cb02c7962d1cf7f4424eec30a3fe86dea559da77f192a44c23ee28f1ad27fa02c91f220e45;
  0x3b2a9e3f86e4f91453656379d27aaae82454271123b30cf18b716b2769e7f9687af6e0f6f4c47bcfc343050df5e3e1a4b9aae01f4ebfb347ba79a50cd0ff02192df252408e32ff7202f45f5000d55d30;
  0xe129241cf99f56c759dc734f7986b25929ca3dcadab4be16f8cc6446ee8f95875ed115388f4ad11cd3eede661e3805f6e2d5bf3376d1f889fea1fca07d027d15fcb52fb5a4db8cf9207ce227c48ff34e;
  0x09255edbdba2608b6d09a94d0105f902e8a2c54de23c8a8cca4fb4e0708fdebe6ae395df47cfd573203e5c053547d36d4a210045366bd1aa1508afbb0a67ce1e25324f3fbfad89710c42b124560df21d;
  0xa0f0e46a7648ea4faf25d2f52aea9d68a0bd065eba4eaa1479f9c81f21ced49a0431e33eeea0641b8d525c4fc83f378efce0dceef2378c61e6c864e1d547fb29e999ca4f1490167672a7712b0b53dfa0;
  0x10d06ca246df38a64122cf27c2383a67dcc39ab5ce0f053f06934ebb37d74bde89f70f24522679ee4d6c08aa2cafab25e140e3d9c782c773e695ecfee9d04860a6c7031172ef228346f5e2f1df6a2a6f;
  0x1092ca7237d9c4ab895caee011334ff746fef842070261b91d88d81c20ebb5ade858bb37c5497f90201246b14dcaab6230b2f6b47491d2d6de369f15a3153991e9e5d8190f31aab9b2fa406430253e00;
  0x874bdcc54d92ee425b3bd23e6a4a82f0e6f65d68f28a2a666966359119d3a177a1b959320c5c8a2a01bbdbac237468ec6742f4e293e373396ad3307da583325d277804f86a8ab870c1207f61e6671e1a;
  0x38d519be6afeafe36f63e99ca7f981ece0f9865525e90d26018283055a4765aed68f4ff90807ccd8daaa233f6c148e338c4801115a40119f867c4c7ec8dcdd689802d39d1bbc2f229ca84accfd38f525;
  0x0ce7f5c1c495ea84a59f99457d4060556b40d4565ff0d54fa672a1e53a213f6057c2c2da93193eb38b6011b1e88dcb5536e98f7afeb5d06a19be5738041b99b8ec82b942b71945e7db93bcd1e8208bd4;
  0xe18039edce31b5dc8140313c274b3f66b058a75af712920a5fa9ec371a498e8dcc6b1cf96d417a84929f90981e71d67a5da676804e9f1794a04b66fb75412bf883040b48ab6be9c216627241bdf1b1f4;
  0x6f0574e4bddb0950d6b50cc95a848c2f463e98ed4696d0427659f4ee4ee257275647838efa80866d5a950b1d58145493e7b994db972aacc07c53ef3e01e577a8db29193e3fa07f1e7370a32e3a15094e;
  0xb2768c1c797b5a87cf5b326d7967012fa8d8f9669d9983236494379f5ce4d20e4f08588f14491105cf388805aa6efc0d4fa76a21572e4847cc23786b171b49c480bb13980de12e5b881172d08d82e103;
  0xd3fa00cc1d019ac87a664ca9e6a076ce42eb2c93b5193e81c6061122dc505e52977a92256e6bf74943a43cbccb0f228c0ef05e008d8c04aecf5ff0f9afcb566a39182ae20a372f3a4a3443b1a443fad6;
  0x539638f00b00a83b0d280971d780032e1e6ced4f567c7295f7079914d5d31306f333f2a7aee900dd5f7e119e1f8ecf556b0dfbc29a314d65778bccfa803b34560ca897191b6dbbefd9da77415d1f3f72;
  0xab91c3e79cc4e7fb483fca2c99ffe962a5b275b520b3e75f5bac81e7584ef883b70d87e34fa7c103443e595a970152e868e0f8dcbd0470c95d1f0c4d1a586fd671cd22344fc822a7394c94d3e99ef314;
  0xcb421c0bfc668e5640e8c63ca6214bb8e6de9345b6baffd32651ae41b78f935f2841bfe9a710ea5f4098de1afdcc2ae822592639fdcad873f2bdbc63af0e4014fc3560e72c0f94f329475f656f07ce1b;
  0x3ba8ba13689be567d68642c2c98f914b81e4638adc0e6b8bd92666056fee08f3b83631d89d60f4a4f5e49e174a3716e70422b6fd7eba12e634f42b52c446b9b1e99d8e23b071ae2f0779cbb10e359534;
  0xf59cf2145317bb8fee3986dc01a6040f12e052700f618b930c1a3a5a2162e04ca8e34e457714cbe6307c729c17134060db571b0ddbd98ff54a4808c41e56bda4913020449d1aefab0eba2a31385222b1;
  0x8353d7a0388c4816831808fe96ccee67c28ded5049eb44286519ecf3c1daa2f41615c5e618895bc2e99ef1c440aaf00b81dee118f4bfa0a4eae79c4f52eed856a124ddba4a909e95f062b72a0a7ecc0e;
  0x8559c6431b49118e993e2322bd2f4568eb20da38c6d80c936f751a87c03e9a940289e167be0d2b6d7cbbfe673371e1ffd26e44ea23b36aa478b1254fccad3b47731bb56ed8700db58316216edd09efae;
  0x19735901f78cd3d627953052603d5b9e5d98c004ebc8a9daba1bdf9adb958ff326fc0391077c0a67a2b83ff69f0ea238b29a0c588ebb8f2749d1a659e2880187a66b74da18d5635d6932ba1d4c42be70;
  0xd147e7c0a9791682b380fb21e287f107e6dd2b014106a26f76c0a299f7989e41ebe3b3cd6f01d537d0203a53d26ad0f30e98783dd792c7491ca9d6557010efee6818b5f9687aeafce0bbbad5ca376bc3;
  0xd9cab81cf9b5896018e17a7cc498acaf200a1da2495c2efc92defd345f969399eb8e11ae6ff0e6166e6d1c774069164edc5919c0c8394696e908c4d2ff9d41b1c8567654e1b4839626f3fef6611c9d2c;
  0x2b8ff909ed9a1be18e01e3896f51e5e5aa584a2a7d2a2c28d75719ccd4a2e228404beebca6b1f082fab231de95271cb1884c0535dcd65250905f2f9ef5835d15f6169cf1eba295def3bd4ba6472da153;
  0xcd2a6be91fd5689a43393b41af7150cf2d11db763b26289132141337c4e207bd54bf8b5df5bcf3c85b6632c91dce55f7991ce18ab3a7d10db9330b27b1a7c3a6e943b505f78e19da014eecd775ea061a;
  0x21e75c981e744750b5310f4847dd9aaff426e5aac6c266303f7656f564388449f268f88d7e01b4ad118f85a7aae2e11116aebbdde307cd93b73c803e40e73ede95c323657563ffe894cf72e29c5f80d9;
  0xaa14c6ff567055b41529c4d4eba8a2100b9363a3abbb48ac7ad9aae2f0ba7f5d2e4200647053ea5b64714c28009e2e480ee995772e081b275743d79019db336281397d4ff1acd6d4fe3a2e05c0eacc84;
  0xe2fc16ef3dffe2cdfe9c5b320456d378bf31feb68cf1d231c3a293b96a7e2b107eed1a152e6e6156fb8d6ca76c7a32e6020953157444e68471b9d34da11b7edc31287e2aa66ba40ff249a4da117b73e0;
  0x7035c731b5d0a71289be775a66b62de361443406437a646c17caf7961f81da1356324a6201c8b2741c7b58dae3bb27a7a0c7ceb62d5c9d658f70e93e34c9ccb11c00f44c946f371978746634922a4248;
  0x438a11fc532b03490a0d1c9bd4dcf408f192de7ecec998b59564e4d8c75959d223a00d91541543240cf163a752a5db57c04711e8fa5a28cfa16322f60e4e6f0785e5f17b71845b3b87b4c3a5cc386c14;
  0x8f0d22cc54eb57d58f98a86c8f4622e487aeb1b19c6995ad63b082041d645a5fae29465b5a472044f5373a087e02bc816b639a3a1c998c1e076c967a53bf7d5671920f1f1c30fffb15371adf1e743411;
  0x0d5c85b29f6a4cc75f940524a496febbfc84dbc8425a40d50c3c23cc0ae5a0b94cb7584a8c53506b851108e04d9abcd4304136fe8000eb5187e33a394cccb11790b6550bdb27baa25c998b99a6eda9e7;
  0x1a3513b604e6ad679d5defc988613e8b30e7f9ed202691b6c9c7a9df58a3fee0f4e846576c4146dbb232494f7eae7d8ba043d1867dc1c525765ab8c70ec41df2961e8a0b3830641c7e293d37313ba96d;
  0x9ad455c67789e5691887ade146187c65daaaf4100d9622a8a5ff4f39d4f91ad156f295f968646605202ef41b622874712abc54548c2db5e37c3eab430128124e93f0e5db87ae44e74c24a2ea678ea186;
  0xb3ceb9f3ae4458fd68849deffb5bc5642c9fffa5fee2ded1e3eb51f690c8942a10d9afa48162ee6fcd16d8b5a1741fe580c6e55d92b3bbe26be79125bd1ec0dfba19b2680fc71ac1cf77524825cb2d8b;
  0x6c4cd57f1f82900bdfeec1973d013c6ed7db64ba80fecddf94deb64f4645d4a1e584b05f5ce4f9c7eb47c1690f08a7b335a983d3119c5f0ed70d2dc32d3b7dc80d68607d3238d11b33a203e7d9056fa0;
  0xf7a62e6a69084c731174966517e5b8257bbf33064b6ee89217a5e10d6fdada165b8e702b55869cac1cc2e913defccbe3d213b331544f520aed03c9c33e5783176ef2e330033c17f18d022e978355cf78;
  0x2a8b9b176ba4a710b1eca7f23bb5fa49f4f5b712d1bc7433b6b3fffb01701fb242fd216520b06fb8b61a5f99383710893fd4d62f15c9d374a8dd71cc77013a11370d2dccec44db8182cce641c739c258]) ++ be_enc 69 0x96772fb37d6bbc2eced3dca968ace4525ba25dbb7a3b84f161ee28266fb5cadb8e8fcbef1f2a4554cdba214d26ca1b24a4131a4e23299d2758145224802237124700000000.
(** tests/test4_twofish_uncompressed.kdbx *)
Definition f_test4_twofish_uncompressed : bytes := Eval vm_compute in List.concat (map (be_enc 80) [
  0x03d9a29a67fb4bb5000004000210000000ad68f29f576f4bb9a36ad47af965346c0304000000000000000420000000f694bb93ef8a11f1cb4f11b78cb8bbac3cdb26f10d3c5d00d21b75f55635f43d07;
  0x10000000ab687de1e620cea4a878417125dabd110b8b00000000014205000000245555494410000000ef636ddf8c29444b91f7a9a403e30a0c0501000000490800000012000000000000000501000000;
  0x4d080000000000000400000000040100000050040000000200000042010000005320000000408b7533959c472555b9924297ad64883730de91536db1ff539e2793e6dfa9bd0401000000560400000013;
  0x0000000000040000000d0a0d0a5de456dda30d26b36d600166e2f209e762d4c1fcc49f9e5a90e5a43b49fa052ab89eb68b17d0e6245bbb6217df81b1b3d9bc5c4835421502329b7059c91373c24ea001;
  0xce17b026443ead5ae98eb2242a90cae5ebc875612d2e7ac84f882b073ec00d000024119ba768ffa98b07d278f9bdefb6d9ec31152762f6de8b4afaca75cd54a4cf527ae4a2e0e3710def752f937676a6;
  0xbfbdcc32af5360fc6f205eb87810b86c74e1b9d3c63422ad2a54da8a25eed6e65bff825036c869420bbb16c05c33251fe12c57c2df08dbd4517a662b8fba37a1c7d777706a1db876523c041bd51304b5;
  0xfc855e7777c200ff79ab831ffbad9c97d84ace6952e7fe16465c57e85f86410de3c25aa22c99fe21de98f0be685b6e12a1d0951030bb213535eac1792fbea098164c5a397ece9f5a54d34a53405a2885;
  0x52a12c669884edc2cf52e7d1404dbe1ea2ba25fc132f1fd07c2e71f95892caf360c071be4995ecfb37af28adfa5ce737cf3cacadbaf21d2ac65fc37786a52e53d672798b3e878b7d56a1001c4974b477;
  0xc2546fed39f39ad4b001757f0e8a72d0dd96069b85c70d97062c3ee58b7d86e707fd0ee72693cd7164e89aa7fd03f9caf16fe4acda8763cd763541eae672e3402b591a9d8477c854ad217a6f87763943;
  0x0e8d57b01e1b731c92732c9f859a83a58fd15d3914dc81792b8e48bc16cc41e016984b152be10f726192acbdc62acceac44932317cffc3167923e23124768c792dcbf779809adcbce2a25d40bdac3347;
  0xf593f92c9bac43f836ce0cc64829344c60ea66add127f5b3b467d2d2cf740fac802e3d89cb68a5ed7004190079b2f37d2efc31776cd72545c3cba3fc1566cadad19f651c1cf74ccfac0f462242f1df55;
  0xb534956874df2771396cf39aa95be3c415b56ddd856c9bfd2de3fe828e94b993bd077cc9661b66bd2adaba1421f16810f923555be93ac3ebee1112b8a47a3bb0b8380ba4474f0d5808ef55cf33d9adc4;
  0x0c42d5195ddb75d584ec76534cc5950497ffba90fa85565a45f1c0edd70be1485f47f3c1bb5155a48f8355e9d78d9e70d9ca9dc1649fe9ce3cfc82dc14014c88eea3ea9c68db1e8d5c6ef1cb88d163ec;
  0xada48b4bda65726e8705fa435e488f6b5dd185211cef9c6d39c55fd51674610d843ef23412206dcd3a64fd8eb3b24ecadda8fa76f5c3c66d3ed555a1d06dad0f985f2a3b2149af6ad6efc7e94149a93b;
  0x4afc0dc34452aa2720868dbe6c3bf083ff25a381387e07b773191f213e116c0b046b1ba9c78ac613d9f8c2b9be1e12c4233ec2805372712463015d62bf38754afb712fb2b1ceae8bd3a1e4eaba2ced0c;
  0x73398c4acd7e6a9c7833a270c28f287d44037bfd189fab795dbd88d88b58cdf7b10756d8130db3021e61073f6a9134250a22a0f9e18b9277fa69a36d7b7e1f1ccf96e9be06c8a061ec52a841de4acfb2;
  0x17a0154af38883065cdb56168284deebbaa87d14585c83cca3e80cc8f0e31080b02d6064a5fa8147cad9048cb938a2b4897184576077755ecbde0eb04705e2182aa08209124b0eaca693d339bc4d0a76;
  0x37503404d3e152a1dea199e90813e7b19798a5a627e8eb71d40aa57f3d019a3f146537eedca41e2669586a7ab34c283594c572ee05e7615b5402a52e881794709fa28ea3ecf6206c4492027f3741706c;
  0x1192105c11214fe6a0e3ca186697066322be46d8c5ef19ad8541763de5530d83331e1551ccbee87a9864dbf4b6daf728d9ab4be6fdf311b2e9b55f74284fc1b890a951f113b435a9de10d8e39b9760ec;
  0x3b616c10b02c0c76a810f3905de8ebed692b12b31138c15740d96cc8c400f06234659bf1b7699bdb3231b199bef21cd050622071cab8f2230ad6bdcd955877414cb02456e347a1bd199a16f1692294be;
  0xdac9ab2409645daa5eef5c46f905cfbca97d30f82ac0658711a6432c87efd88678c4d728b0d87118e82456c89e6a60846a70ef83085b604940556c368d6a7f6103c24f45eb7471c2fb2808b0af00defb;
  0x770b28d287608228719244c44ce8feabaf7e69e06032ec10fa0d48457a49990baee53f9d537569b9fd06e8c3fde971d24724fe8469c57ca9456dc976520a7fd7a5a7c0f4cced7c0f7032a61ddc0a414b;
  0x7d71fafd747faaf294df71bd226f1ccef83a89ffd9dee32135932f464f521c010ac9da511beeecb5c10964828e9f58ce10cffd6acf850e3f4ec3de9d97556056df14548d7a74c20ca3db52baf3498d08;
  0xbef11f7c7874686dd45485d00c56347944b85c131a6ef8e05b5f1f4510aae92c0b3967243e8a3950c83b80e0abb5d2f79781b53d8e06fd7caacb264bee55188db8401827b145fe2fccda2acd8a18206f;
  0xa532ed7a4fe78571b4a1d4a4c29a7ab38478cbf8149e8ebbd14b17e714c906a92f0b0a1f77b5f052b86765a1200cd9e8c50be24fffce716f5cbcf0ee3063aff9151120cd2d7af25bc35b062c46496920;
  0x13b4f37257cd455beb491650020a868f9ea796a82a79b98a1782fd2588c3349ac22adb42db446b4ae2f21880c032d2c77a7946214c871a542119908abafa1a31227b2e617e5d75b4174957e10145e7f3;
  0x522075d6680a2c0a1dff357c17ec608dbe28dd0bd34d8c3c18d3e6bbfcdda1cbeb0299e1bae763240b55a59ab3902c2baf1fc6d4d36fa2341b12dbdddc166856493624b3dcaefe8399d3414f4bef0c64;
  0x0c18e8f373fccee6b212fe94f86bdeadfc1bef6809071615d0457ebbbdc7cfd555a0477a18bcec6ce73dcba49021805c2a76e2dc7a90ee2e43db2fea55b3bd0ab3d887dfe77090c374e7d41215d6422d;
  0xa3bc734c25324a2f776aad7b275789235eb209bfb161fb74ae2860be6b53744595191a05bb85a3ba28e1b02d65e7fb10b78d07ef123f1f9677a2931da8e59bbd9707662ba3f49f8950ee497bac549966;
  0x3b135b1f147eba05598258bacc9c551b1396c1fa12736760cec6d26bc4793354b7eda98508289e58fbe19d936f2823ae48ba06a92e35acddf85c52d37d18b51dbb4d98e6823171d962c6a4ac13f154ed;
  0x36b26a1655b58d3cc7c46b52c80df3cda62744320b56ff758d222ea0c0d2f80e26b1ff6ae937adb688b3b4d32495fac10fa8d55d0c8b58a5e6da30685b0d0670fb2479773dfe46f65a80b5c8d644306f;
  0x2294082e3dd1de4f2ba42deed3ce0f94ec092beb616c9add460c72e34847724ff814aabe087c4e7d0c58877698e637109cd659c6ef1ccd961ab16cc3ea8c19892ec28612b3df2f16134c44f37706905c;
  0x7af62543852be92d41c5b97e996f39328930612dbad00d0e6515a0681bf6bbe6839381bc0afc0693c1b026780ae45c09cd716e0f0c460d26680d9d3d7a24a5322a38ccd7e0d222c76f4ecc0db0903d23;
  0x1048f55c23032c4613a066258e66c4419649a8a3544337b785b567a2716c4a3646aa76d66b06d47e9291800f3a109a0d0376c494c32f73c919c414a080a7e8a8ea32d084331f42012a0c5b838b27b0b9;
  0xf3256d019b9893b17ff81b622628fcd1562bc76271216a426f99e2ddfa96df1ebb38265c2553c29986e4de2b3831dc4aaebf7e7dacd5fd2f26594b81884068788b874bf0a1bfb765b9dcc64b51563a6d;
  0x563383cc54c304f30967ab609c238c3330892ed5da224c355b258fd2ad89d7b26fad1894d5a95da1d07ebd1d59e937aee522c8d88cc0d588699be30c2c3c76c4f4e3e4dd56f3b83e38cb2de3e95b360e;
  0x2f0928813d2e732514c0e0af876f602521db2afa05206ce2e3c9b1340ba1b8548d64cdc96cdd5f8488b2967ede01a34d57922a8324bc59f1c66d94714e01391ba9c621c401cad693c97d4c9057fb489d;
  0x8231cec0ea3c2eee30d14a4cf798ad7e1ebbd1c106b462fc2a934eed8d4e63f0fb1eab99f505a16cf43e385f5a9686eb988cc0b9c4a8b3de3ee12dac6f49f4735ba38171ae2776223d814e2596cd759a;
  0xd024fd04767e78761051db4c68e1b5516fdf11b0951a46cb5b990504a3100d71ff4dcfea8a7ad536650499337766326eb3065222562057afb755958c2b043b154911a4a535b786c4bd6828e5cd1537cf;
  0xa0215b224714b7eb4e5fd480a084eb40d5761f7419096867734230a04347322d58f3132c05b404e0c65aaed4a7cf3d340a4a44016506b87830a87060bc4a8091bd37c63a9bc73660b15db805e1089681;
  0x4a98750c3866a5fa47926b3650840c10cb9b1628d64ffc6e9a4a0d2c1482cf14691c9049603e658243cf4d7a01f471553a2aa5825acef55c99a0037208c75a60401844e3dc2ac21025f3cb033ee2ad57;
  0x001fb6e1e7374b46fdc8e9aad6a9a33a896b4ca46eeff467fc3eb04f7fd9624bba0561fde1722398f7b062288b06639f00c04201aa6b4b06ea3d84075a621bebf6aac8cab087fd001c4df733972e3135;
  0x2e4516a077b733cbce93c9d1d0ac4491e576f59ea73c276c1e121de3649a0599f0f780c7ac43b3ad605c7fddd9ce87c84bdc0cfb0e3d29e94b8593a52dea5b934ee184aef59fb28c14888cdbe48fd980;
  0xf68176dc15c38a904337e05e145d42c42ea7b1722993b6989778b21db3375b5d91d3006e584d7f0094484341a85ebb3810dcfd23665ef930d1497c704a26354c78004c0f358f98efa2bbe1a5fb868412;
  0xe7b0a1b5497ceaa0850b4ffcdd39f380ac4c14f4225ed4fbe52cbe022f99e94272e49ab02d20289821a5fa6091af9090c960bccdcf3efeebcea6138137a5bdb096e9a845e25b74e90ab74b4aa3ef1a5f;
  0x235e79e45039293689b6f4d661487d7af7946554732af60abd7e0a4d451c27ddd6ef3e5b3943e99ff2960617720381fcc4981bea02f02a1e7ce570e70a1de6efc2ec79f19a73049224c29e618fac910d;
  0xcd22dc34d6f2cd6e363781766c90891ec27aefcce8b5f6bd05d91e0820f82b6ad835e5cb39a84cd038838046c849a7733777c15a87105fccc153a0bb2260bec868e12eee68295f2acdad0b15e4678fff;
  0xa373f0411e333cd8bad35fc872a750ce326663f2b78f546f1b571801d57692ce301fe5bb2b77a1efba9217b5a8692c0805854f2253ba528681b73c87e79f36c165e34d77c1ea7bf3709b14b6b6c99588]) ++ be_enc 69 0xda0cf5b4567c4838e49635841734dac564dbaf94db141b4b5ccaa55c140341c87354cdb0ad8cddcb141e3453d42cee5339232040b8f9261f52d191c7a4e75c709400000000.
(** tests/test4_chacha20_uncompressed.kdbx *)
Definition f_test4_chacha20_uncompressed : bytes := Eval vm_compute in List.concat (map (be_enc 80) [
  0x03d9a29a67fb4bb5000004000210000000d6038a2b8b6f4cb5a524339a31dbb59a030400000000000000042000000094fd3239a15483815ecb544dd6692337ef5cab1fbac7bd3abc3dd62496b3bd5207;
  0x0c000000aecb03375a99fde2b5b1d7dd0b8b00000000014205000000245555494410000000ef636ddf8c29444b91f7a9a403e30a0c05010000004908000000120000000000000005010000004d080000;
  0x0000000004000000000401000000500400000002000000420100000053200000006e1947862c41ee227b478523d5e380ba7486301295c96166d0d2e290b1d28426040100000056040000001300000000;
  0x00040000000d0a0d0a44b0fa77711942134ae68ac04a90639764f0a81da167eab02c5167c60775195f5c0ed73c86ee99e51bb217a1a7c3c8d96f53db37c4ba7d79a40802b9520ac35a0e625fce918e9e;
  0x0b4a294b2c69e5122c3cb67b1291f61401ce752a589538d801b40d0000cfe51df8e54d4cecd94fb4af960104f3de56c52dcb8ad5ebb63fa27518da25f915c4a7c2cf6a66b8d2472161dc54cf705bcc47;
  0x366e1f321b2aff50b06908a9ff3e1e3218f550b4569140d43947d847f9f1583137f4f7697e48c5cc6a0c8e0cafe9f2e24b01c1135ea7b23fd60919ad0238a655d77f3e6ee0d028975b77c316c9bb31b6;
  0x61129c94ddf78ae62d3d67f26ae32f59e3dc358b7538e78c2993fd3a86c4ee4cf96e0fa6d0cc8c2969c46657b1ea4004080597fe6d23b3deeaf325ea2449e2e829aa704e6582ca015c600c5f6e78d27b;
  0x0de50d09f5910bf36ca9452008ea69c6d8c29ce2ab9661ec0f3b03fd009cf5ee51e5a5807db104709a226672d5fe699551a1a892655275477d3357aacc10aacbdc2555ee1b2dc9e6a2c56a48982deb0b;
  0x7211380a7d9d66f42d00db7d6ebca384d2f415fd561dc6bc0598bc9a638be479cfa1ad75821428b7e2298cd5065f8100f02fd8e3ec22ac35fea89ad57befa7e7efe4804feb728b1b667351c21025b469;
  0x86fd6ee750c575b0c65b2bfd938cccc58b16128efa454a18d06325921f56198f3cfa6f7b9480a358c29cc1325e1d33053584236098b171743f2d05d779e16ab1aa864d9b787841649621795798c406f2;
  0x9a102e00e39bfade16799ab44291e27e58a16725d8536d54d0046a826098ba016aeac05cb0914cadc2c629c5c28d268f2d9812a8088eabbe7ce2226bff4e69883c86cf578e64ef9c40eedebda24062ce;
  0x6da53cf1f58f355bf835045e8a6f180ccf48d2e93d1644a1e0d5e7f47f32e446ce39c4183a1884c5b17dbbaa37cca161747c2bd51ab04b103ee73e22ac2bbec0aab79f35b5a60d7b3ad369640f50d9a0;
  0xd38aebdf33d6b4d857ed1c3330165699f52ac51d58618d06a3155eed9b4127feb870cd0b6315826499a9e585aefad430c750520067f71ad3db2e995bdac1ab25f04c3d1d7da3f07a5693fd571304264b;
  0x8c0eafd10a569de8a895cf6c482698ba1e609df88d52d7cb97cf65b1bff155ada658b389fa439ae0004287d63839ca5ba2514b82ad92fbfe27d4662c4e5d0c5b91542b79d6425fc7c40a6bf97295fda9;
  0x1e3af77d959a098dcb773c624e81c646da2a5bd4af2bc308b63b07540f377853d22377a37b9330fb383212641330866aa89301e75f77c8b5812dbd875987e2c96e22f437b18b0db752c9805a1e5ad50d;
  0xab79e387a996c6fa2890b96b4e5bc0572f23770369288460b823a40a064dac31201d38b1487d4bbaa69196b21cf210f1f12393cc18ddd795b58b69fdaf32414dfacf892948b389fd891771a3884d592b;
  0xfd71ee87c8fe01b4aa9355f3b3d80793358636e71a5c6685817015ae1dfcc355f4dd99d45881e69140546e1afbc8b926c4a99514950d456063aebb1a071860e43a65e923f982184b69515815c3c424dc;
  0x684ab69a5021eabb6b61388974d15ae61d629c3e976f7dac20597bf45eb7383a9d970ba7465c5d890ac79276f0c78395e48501e2a1161fad12d555e0562e55ffab1eda1671d513c9435d82aff90fc1f0;
  0xaf7414d49f3027c81d6cb5ee4ba41139c450dc22622fe166d5aef059ed061cd1169dc17429ba04f542cfa1546a5cf7175212530baf73415d700340effca0ce50b922fa95f8a84c456414d15399bb5548;
  0x86182fd93823351f480df0e43e21d7ab4953034ec814b0c5e7652d5896a949f032a5f2141ee51d8743b19a931c54a71c8b025686e0341404f3bf4f1c3d72faa5a1a3c48b8e9802cd11800fd365e63125;
  0x4d4399ce21c36a6294528d28cbe2325195b37545a738790d2bec8dfa1118b22137f71855712b5f09b3e193da51b15e92ad71f16b189f0098e89d84d1389f7c97c0f5f8a63df9f0cd50b6901830a9e673;
  0xdaf4ff712b9fc88cd3d1ca2216a483ff040288003ff351c38c8ef84000f2b8ac2d917377740e7609d12d271e2c855606eb4388a369338d60e426d2bc41b33b8c1ead61820df87ebd5bd84354af35309c;
  0x499f7eafcc1b2b9ddf7fb0358c74d82aaaa971726c4c5d718ff63559e223cf4c57fef3c2ba35ac45004498f69ed5a33cba2a85b94b6e80d4edf1b3a59f2e312599e9ffbda265cfd3b1f8102987dab01f;
  0x0efd2f4ba83f7ddae2bf3268572439c410c6c1c8bb6ac9eddb623f6f7a03a46489666a9808220e60f5ed44ae44072086cfd39bee80b200d25585820285ff9ecddfe07ccbc37e9b951a52bff1cf7942ba;
  0xa55441ddc3881670b5b2e88449732365aa39cc06f0c107ae6c796bb8fd2cab2220183bf42012dde10f5f6e2726ae2ff6fbfc4d0898df53b69e797e6972349ef7e9f94e952b7c5c60302b0f020bd04ade;
  0x6cb3114f0ec087a47e8c521547b7cd053f2463b497a5a8e4b4f763967cb47e1b17d42a8e34762be64068409f1be9317962a9de32ecdc19145fe8ef5f9843df240672ea075ea79b2526ae9366d02f426d;
  0x160f1aa2dfbab8608bacacce629b784aceb97b90c0e11432800870e440a2eb3d59804162695adf04f51dc36e8795767353b08572f7928158ef2fff623962ad3e6b79522ef6389b0da12bd84f106bd962;
  0x930318bbb07de22981f44f59046a7e2e8b2f346d48d095ee992cf079d5ef9defd33a5ab3abeb4b5f225e979c11f5822a549aafc050c6be45a222b63c41122876f1eb60a14fcf939e3c4ccd6a5cf38ef2;
  0x6bd29c9107e0040efeea5cff445f1ad3564b96f70eee5b8b016e159b50832edb91830a63c2c7b024141fbc01ba50abaf5cb14a13ea8e0df412ebf31e82418ed5ce4318bc9a84c28d67ef6bdc0a2156d4;
  0x9755e05c97f1c5fde55f1fa246be5a8ff20d38401a4611f951a9f6e10a196b55cbd2ba79f650436db1996686d8fafe6733a0b35d8a50e7ebba4a4c1ec56c95be8f727f4f1f24534ac4e3f10f29426d1e;
  0xeb1c85cfdbb646191aeb9af79d5c32de8a01eb913cabf108b48e6f6c65eae7b3961ac1384a5ab4159e9c270261e58a3fd92d94698f223c3591e01371b9cd9fba2c716ce541cdbe8dffeecbd94a75845b;
  0xf3d7720c50f98d01bbf75c554e51f92f2d393a47414d617a1e383630ba5d7006449d8534fd160c40ab31501304fb365055333fa66728fad1088ced247069a99e54d959178ca5a346bbf50ca39782ecfb;
  0x8a5bf9069a82131048ebf4778e79065804616add4e9e8dc10cd3c3697b858693fb661de8220a2481885bc00c9f8177de9439da65d8f8af05c8f2745b7de4d759e714d61ab43e39751bcd605468a5413d;
  0xaf7f4556bbc8fdd490f604e65676b2957601cdb180f272ff36515bf08a46da62242ad8b6b0b09bec7084194480e0cf92d8b9413aeb3f047edcabf996356a2281d67b70685b3f333562d84dd5c3b04af2;
  0x08851c0a2b15541f7ddd20f8816a7ff6570139e3bf684eb6a834bac81419c9ba844e597323c0530f3c5c1c169539865601797012745117691367503177a494948d903d5d1507dbf2e86e934d9f51148e;
  0xe75a290357551facf15d70fc5d19746c5a1d6dab58e277df2882fc565de3a71a03f83a622ef6d7d597cd58e1a700ac96ca8d4907cbc21318d8cae80b1d88ebf8ea2847c83db1d7437e34558682c45cd4;
  0xbb998f49b12dfd2509b634410f595d2ae5152716273db10457696d6dcd827fcc0d1c51bd82f4f83af3d0e317e2ce5f4890b3185adfff8620fb785ec7d16fda47da05937ba858a5a451f054863eec33c8;
  0xe49c6d313edf538886e2543b1f1c90f76178dc94182592ff572a319bdcfaedf8bf2f4da3ffc7014383a66db7397901c3e674452bce21afa7d1120a53e5141df422c4d9b0a04606b761a553d985fbdfbd;
  0x85dc7d229c021b6a6192c09e412a128d81975bef5f0cb71da6bc648011ec6b179a6041536a93d5742fff81e33736407a8a12b2bf37a9842754144b2955ac653f9b7014f8e591d433f62a8749bf98ef76;
  0xfe56c3e81666ded04e9ef15a2ffd0da517bedd6186372dfd2d608323798be2b529570943a9c5f39a9727fc1fa1324b1161d4d5b16d38737646be28f06f6a1581ded73ecdd951aefd96408de72f4680fd;
  0x8d5a0a296ec972d49c22d9bf8969871e15b065f5397a5c3b0db2856fca22f4c2cddc1b48ef215bc2451b5f7c69959119087c94604970f3ae54a01cd4cae304af6b468cb6484f2944b30ebbd9690a4bb5;
  0x69011d58ee1c4bdf1d4d7874de4b6c4a20340c8d3f128e48762c52bd5b453d44a6a4d171e756b9901849d024e4b65acbcef5144dc48d4616115a1fae72824a738fd2807ef9e9077e047f0bb636e8c683;
  0x84e922376f38f1157cbaed9b335d181569daa5fcdd2783d0f06682a2a4fb0562dbfc2e0c848fb1f5c36eed119b1557364d3f2d7d66704d9efd129755634dd7627ec1acb579e46fd007f0ec5e8a30b651;
  0xefd345ead58e929ab4fc41a4a819ec9f1f7e3e3fca5cf467e9610ee91d5f591351212e2976a5d903dad1647af3b049b4b22984e1113fd0fee34b077eaf2526d20b2685a4f60f492d78d7739d7ea10146;
  0x9d54eec66fd1ca9fb197e87e1c6cea78c551f3188a2e186b5abc5fb5129ec5f9339c691ee693edc62a7f6e82c42d876df262a70a784b872729930c65850dc0357e6661111201285efee453215302123f;
  0xbecf6acad85a65520873591af96bba34a04c5499d37fd9dc3eb3e4f9996f47376d82cf91ea6d2b51efe49c579cbc4e17397684744a8c50c76d75ab227cd48020b7d7fdb42320001d17c0681048216ea3;
  0x56ec4d3ddad2082b0afc1c909a38d4b9dfc4345ab1ff6abcbb77d820da9426ccf685b958209fb1e99a854080029bab423d6ee3aff9a14ab9ce8bbebed8eeb33f4496d4003737e0610c56ca2ec9096cfa;
  0x1bedbbbc6ca43d4b365c76fda991850588791426e45b095a0233132e750eb432977832cd7d4a4c1e4625c7672a7b342e8a7c27ce013c4511ae7eef87144dc129c426ac597a6fbfbf7c01d1fe9d7262de]) ++ be_enc 53 0xdbb67b80dbb1e1f62b27998257b26e9400bd9bd4e31de1033d56cb331f9cc5810cc32103420f0b684aaf429a1d7b77fe2400000000.
(** tests/test4_argon2id.kdbx *)
Definition f_test4_argon2id : bytes := Eval vm_compute in List.concat (map (be_enc 80) [
  0x03d9a29a67fb4bb500000400021000000031c1f2e6bf714350be5805216afc5aff030400000001000000042000000058a7f4b663945edfb5ce07397dcced69c20c67c61d01ba218faa8289d213161107;
  0x10000000d1da493e1416060022e94a10c21aaa350b8b000000000142050000002455554944100000009e298b1956db4773b23dfc3ec6f0a1e60501000000490800000001000000000000000501000000;
  0x4d080000000000000400000000040100000050040000000100000042010000005320000000dc4daeef5e2e159aec4dc6cf58efa4db0ec99c4e75693f491561f5bde1fffe960401000000560400000013;
  0x0000000000040000000d0a0d0af555240a3518fd38f24ad5b695e3e4565cc197bd657041d6689bc0c36bc88a90445b4ea5f029ae0df1887b20cd06466dc04cb3694e9e5b8234da3b695573c64461f4b8;
  0xdf9f700a4c6a177f4e5fab99e1251301f2c90013b0de6f2229d76a6e76d00300007e399a2e8ae583c3947d3ddd9fa9f638d8124e7e19f139070dde902ffc8f33a5dc485d82f4366fd6751d0cc1a54b74;
  0xd462828f4c064e08a293776f717369fa8d2a69e610eab6b6d36c8dfe92f34375ee29b8e21835ecfc1071ea2297e74e21019ae96422b34686eadd8c8f6699093dc1cd4895b69a5d0c0430ff2038cbeebe;
  0x4837a772d11be5f8e25cc4fc54a18e180c4d0dc73e3ae38657ab152501b8824acb45393d1d3826a92331f09bd3773add3ddb787761883c4aa6449aa8412fb3ab5dad51951c65a94b1692aa628b5fa64f;
  0x8b5b9ea3c55deb4738c9bae7fed55fa02a6b1d693b9b09db52bebad1e6d6f15165568e33b0d0e3f78b4f7cb62a70770536c89dcdfbd35888b216eada21b2c8f7228354221afb76867c91bbefbfa5aa71;
  0x9f60daa083ac6cdbc727d8a7351d066e92d06195a7a0cf8b7da1fd5d7c5dfb43baa4aa899b3da5c755f972246860f93175b0e14adde17aabd7072010639864b39bcb3dc4dbd736c0e75560fb8a0495a1;
  0x9b2119f5e9b56024ba963a01d3b17f864a3ecbe26ea83bdf724b4b9de30dc5ffbd374739f1f29e222c81b7c36c6c27d2e766df7012cab91f065cc2fca414c94718d272a1b0c4c4563f4540557017f66b;
  0xf6741baeaa8812def0020a58d5c4395c7340b3a192bf2562a34e1d7a5b18dd5f085f6dc92c11ee1fc7c98e396f3f92a42b15297fce34444d71c04178537878856ce42ee9a299908421894ca078af0dab;
  0x492c4ef65712fcfc76e94059327f35d482267c63e37802216a364e584aadce3b3b67a05d702c07efe6dca3c87f217425561166f88ccde9ff2ae6d7ef771e51b6d1b67ef4a51ade3cf6b8a3341ecee3b2;
  0x92a2d62837e4858958a6313d56f80a8fc610004e28eaf82b8d84de12d7533753090402ea202fa79bd5990137d1e58905aa3cb0e5c222ef041fdb01fbbfca2229bc4ebed11ff2a3e2ec4031154704fda6;
  0x8d5c2645dfce9a4d0cfedeb6b136a78392828dba929593ec681eec78be04e1e0d18da4b00fb9dc5fb83a28e84a89cc3e286191da856075ac333ba545cf60890ec395980d848576ad12321febff2de4d3;
  0xadeb633e5fca027889280c3dc3d2dab84f9eafe26c9f7d49d3365e8059590bb71b1fc6401ed39380adb02e915275e4807a132e7ab83f1bfcbbd627846315f3e44e74c4e30536972c207c2815bf575042;
  0x6d153a14d171fb34f40e2cacc59f371437213d1c985376278ed493d741d1f4ab6d586ba62ee640878b89c9e18ce4088a89c2e4baef1a6273f3eced4e90e22a542ce029025accfb7b0abab00ff650c251;
  0xbcc70af2d8fef7dd2046f5700babfbc670b790669c734f243a221277726088dca9c94475d4fdd124c76d9c6c12146276688d75f989e26ff2009026e47be5a2abe8d539529ac86caa16cbe71f18f6381b]) ++ be_enc 5 0x5b00000000.
(** tests/test4_blankpass.kdbx *)
Definition f_test4_blankpass : bytes := Eval vm_compute in List.concat (map (be_enc 80) [
  0x03d9a29a67fb4bb500000400021000000031c1f2e6bf714350be5805216afc5aff0304000000010000000420000000f9f86f385ef32799b64d86001de7841af6aba7bfadc0835e02c2d759588914eb0b;
  0x8b00000000014205000000245555494410000000ef636ddf8c29444b91f7a9a403e30a0c05010000004908000000100000000000000005010000004d0800000000000004000000000401000000500400;
  0x000002000000420100000053200000005c8a66e80d4975365dcd2de13eea7e23050f22a0908fc2f7ccbe1823d0033ab20401000000560400000013000000000710000000f0954b5139a7d69ffd242c42;
  0x8286be2b00040000000d0a0d0a2421c428f0f173e185697473ecd96863a31601ff32a916bdb5cabd316d5e9f3096db116fb7fbc2b984093f54f22ef3837fa7be75078c414cd58bf62d443d5656b21ee4;
  0x7e132e7e220ddebfa897032426a413d1eef44210586b08fa6d3932a558d00300001556d22556f97519ca7641dd77c90271e43a102b9aa37c0826a8d7dd88c5fe1c3b24e4d9f2ab5babae624ff6151aeb;
  0x896b637bb6bffc7486209e035eb0f77485819ca758f1a2a282de43deec509f056933b6c309bc86e4f919ef8d77441a49a74abfe28bc274779690802b1f38972ab1764ae011935794b2cb51dbc78c1ec8;
  0xbff31a6627a5cbf4009672f57705f7a28a3aee26ab824ad89a5ceaa288202ffcd00736cf40c3b7714ebcf57e0037fc99bd360a0776c5c6a6f183f87e156609eace437e1ddee7b2c55927a573f89c789b;
  0x97c404a47092fc84ff2fceaec83dda55317a5f5e3df2d835eceafc29dbe23e983518b182f830906134bd920d3506cc11ac112c742ceace465eea7db383a3a721a798b194298220a5925e0da19a48812f;
  0x4120d9583f880f378b4ded8861a2f4c79824ca466cd492927a7e3ebd90103c70676103dfa7f02f75df31da1e2359439494d756d978f145a951228417f47556e66fb9305ae299c065778a9379eb40666b;
  0x3ac8a0bb35af734eec10564cc0dd6d1b3fe0bd4fa0bdce0787b6497ca2e43e17699b8a17bea022340502b1814efc24065ed357319976694ed7157265cc7b09a074c8c49819949d02649160d885cc7a14;
  0x98f6755c7fc5c4c4c0d556e87a2a98369a27dc2d1ad0856501126b294d0ed90885ebb2ff836e0483fe13a581465dfdc7b1d4b096461fcb34c88b954e0f395b26ee435d97c7218081438217ab8ee63407;
  0x4df3b3e3086be0bee90500b6a05b0920f4168ec332ef96504cf73ccc9480bf41b4fd39ca95a85dc01e9fc2dca7d17c0a169966d2e6533b4d914d7427239e6891ab15c72e168464152a07cbb37c9fbb6b;
  0x5d4b5a8a6b7f87b1aefd4b90185460b32a04a1602301525a9e05ae24602d13b6aa43ee961123d8deaf130b675c9a48c3d605d8da8289e0f299b19528c79af08e675b6828614adc967383a1659d362f8a;
  0x1b00c87acd9ade5fa86915e6f65004b93fbc8eaa8cd155965dd31406df1167239abace2c10bba8fe9723a3b87d13a0ad3f9ed7b7cecc801106ee9dc14a1affd1be54ca75abbad6119ba3990f4fff49f7;
  0x4ad8d3f1a6af1e9c27f0799cd789ece0a7e29099045835addb2fa30439286f56b5c83397249adc37784f4ec933054228b015534c77220613834d2a1b21cf2ea3b7a549b456bf778c2b25478b72b5422b;
  0x101e9ecf23ee34fce925c8b0d9e992882399f4d3314a4f66e785164ce44b1292e9fd52322ef71fd7ae50ea6bc39cb311355d375ea6ae3315cfe20c8e8a662e6884f64a0eafb4c65b8dc482082185963b;
  0x75f5408715ad69e614f9beec21529f756afc10bbfddff401ca65ab51e463a3874367917ef90730224e6e9f6fc5b6e7ce6d885e02412ec6ab3297554c6b21b8744dbf75df87e68a2956a7c2dfa6305814]) ++ be_enc 5 0x9500000000.
(** tests/test4_hex.kdbx *)
Definition f_test4_hex : bytes := Eval vm_compute in List.concat (map (be_enc 80) [
  0x03d9a29a67fb4bb5000004000210000000d6038a2b8b6f4cb5a524339a31dbb59a0304000000010000000420000000ad58bde0dbef4c1284557752be065a5152a0d7b53b4668edb155ea7c9803cebe07;
  0x0c000000c620aca180e2a563c43a5d890b8b00000000014205000000245555494410000000ef636ddf8c29444b91f7a9a403e30a0c05010000004908000000100000000000000005010000004d080000;
  0x00000000040000000004010000005004000000040000004201000000532000000021d57364635f69470b0b2a8af579ee72083bd725e433005eb7fab9f5cd966712040100000056040000001300000000;
  0x00040000000d0a0d0af412b4b368a7ee26b6b467d5fcdab9cd3b26dd98ee7d0aeebbbccab3b0e2e76e4397c0f410cc9f119c90094fed41e50c9d7b7e46282141a72fd93136a4fca78e2d5b6984978ff2;
  0xceac54429507623b8bc84f51e20dbbdb026233f16d1e744963a4070000dc2dfbb7e0ef3a43dc03a5d8b832bebff4dcc338d1e5b96ff35285ac1e0ddae316e9fea0e5db2e8f6ac692112047e34caacc61;
  0xd9e1165f266391e2d5929a2ea00c5fb742038f717adcdc2dfac273b7bd4ddc156ac3136c81138a1b9378b0dd2b70377a755f84c36f6a5542dce443fae83f9786dd379389ea638424173da580470f078d;
  0xa182b5ceccc5e92ead49aec66579c2417affb427e77e4224365da4061970db9ff4678f41f8a14c5377105df343e1fc7b4877b1758384225f0f247e49fdc1666306d785dae712b2f15b5730a2a35c3d85;
  0x75136eaa951dc59919a9aa7b89fd7d4e82b06ee5be74a473533f62e203e9916c54ce6e3496cba5a1dac0ce42a65037d4ca242a66b0ea10233bd5825a2429ead912a23ff8dff633f1650062229fd886da;
  0x5cf6765bb00e89e5af5aafd8cf10f68b5d0d2c6f7224fa6824171d12b991a7cb2524eeab810324b2127de509639295d787b2e860a7e2bb414f6a8797f9771b45cdc1e02cdb512f188a7ebf10f764e6c5;
  0x821a651378b7396d689151386d94fa728f3a4834976c83288028dda3482864fee98db69c3de61bef0d74261814331f956a8884cf0e3071c680de70f82b7fae7afbeb9b099af8b93fd5f6c36abcd1aa2e;
  0xa95bcc7c90cacd294eb4b854d6fdf262eb9a16728adcaaff3dc3e70c035345b22c56441f10f4ff0d6bcf7bfa18afc62e37b1ff1c6853ec53ca988fc3df27fe83d4e09638aaacfa7661ccdbcc70dbfd4b;
  0x46a14be894c01d1eaf6459bfa9b9b323b4a1ee483f5251945fc8d01261a48b36f03bb102d094ab58aa1133ae213f0098920731cf714f180b10621b843842600ac8bd73b4ccf4d82530574873a04d5f8b;
  0x1703430a598224af33d1221068c8b993dafdc6999c9cc25f5e6a88bed159b6e4f4490ea759fd0c5bc7e491a7f7b50cd0b25bdda0303012a318bb8af8565877f0d2e4fa0a1c66d3a4afc2d5dba0063f2a;
  0x12dd554bd32c3f1df7275a401e70e5dd940ffcb5aa456306d34ca86b92b5fed8c74ddd22cc7dc629afdaf886952ae211fecc357ef2689dc30ef36e85e63e583bc4d705386eecc953c754676c47aa3cdd;
  0x40f460bbd8a3ee6a64a43a16244eb95ff00a0ced09c0443b487701e2c5d23380324591d30194b2e30a1f430948209ea50a62ac9bd21df858d87f7ea11aa850651057a669d5af6beef641545b6ad215f0;
  0xad1807c0537ac42dcd5c3ce30fb9b0bf56f7e06caad6c4b1dfee5e8264c9f36348bce2b32a56e0f60ce377479de94b8cb4faed54c6aeec6f504c9f402bb200449b9789a7841617554075588dcc2244f2;
  0x06a2efb8f164c4da7c30cfa58d190d55020191b670f910e04f2bf3c96b8beb5ea16b9935cd1a4365b29b5c4da3417cd41fcce91f0267546e7cef1ccb5182d8a1dd362565a7d13ca6d4f6065202b72195;
  0x66d5103689da4124218e1a991257bc86fe599e4a4b7844f38f7823c5918f3ab8b49384f8f513f804da217dc0a90a163f30ec0c4cff4e64498c552bfa8ca9574c88ce29cc0e9249c89f7afdb9a36c0ac9;
  0xcc86fa1db7f6a00bc31fbaa6ebf05b0542ae5a29255515fd3d4a719c81c1c33c09f8ae725e11e935383adf2ce528f9f7a8db3afc930c968b6df8d9484a23c6b767a668c20b5f8991410c01b892480c16;
  0x7cc2fbcbc885615e23c22c3b26ea693e2fe859622b05d7fee994e9e1ba144ff24c96af2324480b458ef942a6cef1e932a6c610d6abcdcefcee2b7ad3647b8504f05337d95a2bf542a84235039396e7a2;
  0x3696f1fdfa6a2f3f39293ec616508626cf6f644f67cc3911b8b723a1e101e7d736b96fd54582f93c883ddc860aebab783bc0e584797b8318648935119ba67b984e563612d856bedb377efc27e3d27621;
  0x48479337ed33e8bf1e0356e3dfb17d7e0f617783b471cc2c4bb59625d05f8c62092cef674da33faeecf63bb37955be3aba33b23b8b76565cc5644bad8087b2811af0c1ea2d714b968d51109d5fdc8015;
  0x3b007d06ee1efccf228e975b77d50b8ec5315592058efe92225a173e30ff9aceb2c956971dd159f0efe5e9f8b6fdbb364b3a834eebc6c0102d0ddee382e7db0790ccba84c125165a017c807f3fadf4d8;
  0xd95837090a44189efd7c1e3589410a70cc65dfc5fff25e54cfc42de70ed51d76ab9aed3f2c2059f291aef5585850e68e16b99c473d89f60d85d7f8836fbc9549f4bd509a5f443009a42783b236811191;
  0xfb2cd9ef4e3634ade203128315dd7fbb308c7899d930ed0af65cee5b3a651dc8f7f8cf4f5c49c2125f59c6016213aa6bf6a2a3c7a7a56c8ca2177a659e73e45d3ce0553a15066f161e77423af9c6ee4a;
  0xe0b4210f75d0c214670bc745c4e7a3ffd4d4ebf63bbf337baee9723e02f41493f73828b4183fca6e7cb33eb611a838da26e7744bb52ba491ce672f77aa7d5098e8547ca45631f12893febaa8d99b92ff;
  0x1b4f56a2455b0d83c97898b1b699aeca115a1640268c538c85888ac0ca19b7d08deeb518ded9419134c7ec1deee3d37a3adb5dd56875ed1470d6bf98c75de8928b958f0b1b0994af1e9fa7ec7563a72e;
  0xd7a338037baa50ebf3d35523bfb7dd8dcc8dca314bf1e32c259a180307e1839fe7b6f85f19407d9acf576544968fdcc441387f1c6472f917aab090a2dccd5efca83c19434300ee2d82050ac5a5847811;
  0xd475400a505788d7bb191408258c850fea56a670f29d41d46361de79d04ad30ae12a9809d4ca9d7f5b8e924ccac59a51e1deabc4682531cf7f56e25fb3f9302c1dc025ca42c98fbf865c27244f3cfadb]) ++ be_enc 21 0x5651ee5eb48b255c878a32621c789498a100000000.
(** tests/test4_hex.key *)
Definition f_test4_hex_key : bytes := Eval vm_compute in List.concat (map (be_enc 80) [
]) ++ be_enc 64 0x46464646464646464646464646464646464646464646464646464646464646464646464646464646464646464646464646464646464646464646464646464646.
(** tests/test4_keyx.kdbx *)
Definition f_test4_keyx : bytes := Eval vm_compute in List.concat (map (be_enc 80) [
  0x03d9a29a67fb4bb5000004000210000000d6038a2b8b6f4cb5a524339a31dbb59a03040000000100000004200000006e2bcecf3d6ab3d4d262f8094cc25c960fc36b9a51bf8ec4b23a5ba128e503e60b;
  0x8b00000000014205000000245555494410000000ef636ddf8c29444b91f7a9a403e30a0c040100000056040000001300000005010000004908000000010000000000000005010000004d080000000000;
  0x1000000000000401000000500400000002000000420100000053200000001550109b60a2398da36d15627d9d40c0129a5f67bc9eda1a0d71ca3f5dbc36f100070c000000114ace52bcce0c95d705c2cc;
  0x00040000000d0a0d0ad337cfb9a962f6d918e5a6df78358b41528c9c278e88dd8c307c7e6d5a0a7334b700982f0ecbc678e5a2cc1f0fe5715ad559371a741a9f6e106b618ec151eae2c9f9956b570db3;
  0x79c64c324460c49891541af22760c1cde6f48d131762fa901cb8050000acaca36474b6a5338da3e85ffcec2694f681babfbe0cf4e8dee69f4c3b36246072546c621dc774f4fcdaa47f7f26ba5deceea1;
  0x03b21ffb5c886895535ce2170129bf3a2b35ecf12f169b862290e29a0a10643003b74473a46fa438c366645b89dfbab6f2bd5f73a5aab2c84385deda0efb8aa333ec2d73b6b0010f7bc1d1f5a56c8054;
  0x6a88d279042a000fd7e02f35e0fadaea846f403f4016528e067a69f8a5bcc346ceb6f7dfcbf4129a3b49839a4cbbef39f22b182ace1b18530a271a74d2efcc0ab56898680ceb5955eb5c025a5565da76;
  0x14cb8c7621e92e5ea0a7413c5927e017e442a02f57ef4b29879311ea78c903b91bc959898e6f1770ffc55952342cdee06d49049605d0f77c2f79bca80af34cd824b3034679c52a05caab6420976a0347;
  0x3a9c98839338f754a6d8a2b8e8ae4de1bd217b61b7a1051627f43403552de2cf645cce791bd18823a837ce109cad0b24e7197be931b48e310eeabbdc7d1d89085686b42ad684981a7ea4eaa483e63e5e;
  0xd10fbf3a1bbc7d3b156a67f8402b4a380444c8661848abc91b3af1703b4f47d2b3fab863404d082344eebd6250ec87e99048094281e256cb27b14ec66756e1ad855dac1cbb1fa85f0a3533fa68477a44;
  0x5eb9ef94227f74cadd37616dffa0842eebec96ddbbfca7d504833aa8dd7cc8e6d9d048cda652bc01c1e6accc92a24a65876fe713912bdaf9b4304b43fe1cd62015c16a8f58830d1e612d2a4618b67cbf;
  0x43a5f1e4cf6e90fb5272009b05d6960cfeee7af8595f69ef54ca446e36382983e930a1f09c6d81dbf35a6d2c3424e5c393cbce8d04313ce37b57ff3a83b9473ce1714b1ea50ab87431ab9d2379fd6684;
  0x3ba1f209292dabf524435d3fedbe8bb676c1a785b55479b86d843df59f08eabea060b275ebcb4097479bf60ed029640c9e62710d22f6e538d6ad21e3cf7856ae7a3cac6c72b87887da861090cc568455;
  0xe6da8d5de1dc6920433c7d3cb292ce318168c3878af9f29438429b754347e746a341e5d9b93cdc119b2c065f3237acebf8d4d8e2ea447be4d0b52766ad1e97589b8a4f38c80f0778dc496617c97ec0cd;
  0x4cec79db177f0099ece800e19d2cb34f7890b1fa82ac0466d45ad02d894dd81accce7e374a85849bc647c7427fab50e1201e5b2d323db467dd251badb1932fad0540dfe8a55f2467155a95e164d24854;
  0x656ac6c669135574d98c576b1096610b4591677f899205bdb8e521020a0d1340a7a18bcb426e8c98f6290813383c086f1bda5f21501325f68962dd1f0b99411ef5d5f990d7ab2f46c9e1d818f63919eb;
  0xd57a20c24a60a17ea15d2d206bb3b6f280836b2b1ecf2c7ae65a3a4babc1117e27ef3ba504db0efb4de6b750bfa4565643ac9f2bcc37fea5bf905240ced711a0b955b977a2d1b6459330d2631e33bafb;
  0xed6b0e51bf90568d151badbc5b983d8f85d55a4e9780b8dad6556f418356967d401635f6d66cc15d4b3a892cdfbb1baa4986bbf83ce27004ccf32c27a15ddeb33506adee116c9c5d892223bf4a7e0cdf;
  0xcbe89c1920c3169ed7526e2999c0a75a410e75d87ced4d6b297e848b4778385380b1c177f0244b6b7e76436cfca9f00eb103e323dc2ab763a801ac8dcc11e746bbe0cf466212cef5af68ff4ea3b3f183;
  0xb485cc08ccbf119640d67031bd89911269c6815c6c08a7d447fb95045b03d5138c2883cc6deb00b3e4d4cb3d93427524ec5b7b628d5e4b3c7558929ab7d927e352de36f18533731aba21f430904d55ee;
  0x94907d0ded9aa8af69a481314e5810a42fbf198a5846e38c10e960787bbc8844316d1f86b7ed55c44875e157f75fbc2fc32ce9d8378b2dee6fed56eec5f824e719370650249d52176e53a15d3585049e;
  0x745caa5efc437dda98bab842b65265253b051a233731b990813965d235c9f4b8a4c170f41937c23cbd0f9add1b94ad81ff7b633de29f023e42a8ef2de6c46606de7f56e80c5b558850b6586f2440a8c3;
  0xf10d4114ed8bf95b68a04fbfb81828f8a7196a8c5177965f96fc39f4d76b556aa7a4f3740d53647b083f29d21a6cc509e22be3cd8e26650ee7e546a838e95cf4f3c463ff31946697c6751619bf298dd3]) ++ be_enc 9 0x199de0bffd00000000.
(** tests/test4_keyx.keyx *)
Definition f_test4_keyx_keyx : bytes := Eval vm_compute in List.concat (map (be_enc 80) [
  0x3c3f786d6c2076657273696f6e3d22312e302220656e636f64696e673d227574662d38223f3e0a3c4b657946696c653e0a093c4d6574613e0a09093c56657273696f6e3e322e303c2f56657273696f6e;
  0x3e0a093c2f4d6574613e0a093c4b65793e0a09093c4461746120486173683d224637394245353444223e0a09090933304437333138342046424531433743342042303745453444362042433446313138]) ++ be_enc 69 0x420a09090938373537374341422035434238383436462035464432383646462046393842463941390a09093c2f446174613e0a093c2f4b65793e0a3c2f4b657946696c653e.
(** tests/extra_content.kdbx *)
Definition f_extra_content : bytes := Eval vm_compute in List.concat (map (be_enc 80) [
  0x03d9a29a67fb4bb500000400021000000031c1f2e6bf714350be5805216afc5aff030400000000000000042000000026e2adf175c72cfb638842d5822e1531f921fb600e31e8e59cc852ec03e85cd907;
  0x10000000c910c5016fa80dde796711bfc537e6c70b8b00000000014205000000245555494410000000ef636ddf8c29444b91f7a9a403e30a0c0501000000490800000014000000000000000501000000;
  0x4d08000000000000040000000004010000005004000000020000004201000000532000000034de19013fbf82ed00ab0d9fb6e637a263c20e9cc9c72acb03ba29b3d6a074b00401000000560400000013;
  0x0000000000040000000d0a0d0a79d4fd589024cc502b74850c0fe41d81f82e5983c60ef3f269c70345e7ad58338f5a7a1a71a9526fc830ad23d55c44d5f3066461f117673e539b6ad5ddb489ba075502;
  0x1762a576dae05fd3b8cf67e748ea61d9722be2714eedcc31ff92fa56b0a009000061f3424d26d35998f64d7faade63c5376e480b3ff0d3a7b3324608380202f814b672c4fcaadd0f25ad9fde832c6ee5;
  0xc80476c188079a2faf95c1f76d1f781ffbbd9cacf613b351aa073a2a854e489f79e75971c17694ae6cc34176733c2c75624b1c0d5af425bd64a229d19df7d8474ebfda3ef4c955acd7658b91230a9215;
  0x2c63cb83c5f23aa9c378fd69f3e44ff39454b5a044bb34a89e37fef6ef64506a200fd157ae7e5b8040b1b7bfc017a72306243ece723c9ae9312a5de15fe60129c9f2d1d662c1b1faeed8aa198304a691;
  0x123ae93289e4fd065388adb41cfef4e2951eac50680946e05ba2d982b2c491ee36c31f2f41e3744478839093799ac1903424723cdf022a00e29c64c32a4bb7d541db092894564c9d605c83aa178974fc;
  0x90dc9311f1bf04b88776b1357479629933d7dd9afd207dfcb63be8b56199863d9dde438b326fa3455063031d7aa8ef79b8b1764812a546ae945ac860a62fa4aca54372945913987d8413ca81b9234ac1;
  0xa10a6ca1f9c513049a8cecc4ea3b65f40dc52166caca44857aca7e0c7908ca31b5580e5940d49d9b3910f3e48405b9ff0924d1ef321f647cbde632dd90098224600e2486031586db402da90e9f508879;
  0xec990d2063f924fd5b303cdde9e4737760836b3ce388266c4ce1f0d9a2af70fc186fa7fac36e1930f8c91f44c1807de2ba85e2c124c85fba0ee6a26afa1242a937dea501d33f2fb4f634ed4601ef7d3c;
  0xb0099f20aa0a21845247036832ab6b11f304b7bb2959bc8bd799c904d5c0781a3a074cf924b722f9ef1c15616557db65579a8f586d4f235d8e60a3d80c8e48455eeafdf1619dc4251fba27a291cfd15a;
  0xed4ddbfe9f550caf4f8e8c9b54e21b4a95ee9db9c13f48e2722e95d3b52362b255e67107a1171afbcf2ce8482ef239418ebc1d27cdc0d8186141532d7a7cef86a46ab1d444459db90e7ccfc6dfda6f01;
  0x639e91ec54f84d9837778d2ccee61e61364a669800bf7e9a7da3981c95d3442c9946fb81ec3ef28b1aef61ee6e7bf61fb5c8693c63a8ee0636c61644adbc9a58c7726372478d71d00686cc8cdb080a37;
  0xfa7abbb9e33063b08e085fb25234f4ca7ad58fd439bf63ecd3a63cf21ac8fb3790e26e7dfd28aab8b6503f7c16ef59e0ab7d250fc04a9cc6c181bcbff68207ca279282f1923c47b2d20ce4779acc321a;
  0x95d5d5b08ce374672357f4229eb679de523ceb1f6265f47c88ada24520010a7093fb25cae63c2bb44c6c4253902c5a632a840e709001ebb9b5c955051126085f144496998db3e9004e3c729e9bb031b3;
  0x2c834381f76a6b92ca6864543415ec2d41a9bd727ac46945bd77597d1b00fd9c6bbfe4f4087973b5440a466016348728f984e923568698b51189931a4a308854c6af1f5dd17944bb3b5151c6733c6108;
  0xd958fa37b379aadf7a9b98889ffd275ab84399b84988c4cf411196af376f0bf84a4b75d179953dae5297d7f55f3689ff07014b4269ff2d757dd4175efc019d1646c5f5c6d293c7100c4c56a51852ab7e;
  0xbf3bdda92cf8f12bdb7f46eb7d453d0464c1fc9cbab3c8c2d85b074c0bf9fb01ac488e5df8e906752fe288c4c40cbff409d669f021bcfd79b566035172561fc156b8cd7603f5a0161d2e80e6f3e68554;
  0x698c91b4cb5d4abb1db3a38f1c803aa6782665a1a74eb3602d368973cd6c9175578c35d7e1293020cdfb15841d7245e65483a97fbda92b7882a2b638d2cd43ac1a0d03d916cd7082b1c6f60f05ba4c24;
  0x86964767a4b05b806af1e2868fa6641156f3c8948ec183a9946e87431325b04483b985bf22a7054e964749852baf92e03a4c194f5ad9cd21e358646506eb457e0e579b747a910a7e35b30c28dd6ee0cf;
  0xce6f75b13f6eec60e8e4c30b95ba14d4ceb3375179e7d107b820e247c308c3425553017390b584902142469679477e481c35eea28a1d2f90b0d22babf9685a47caf4711aaaaa43747eaa830452b7ad05;
  0x7b20b7e402fb938e769824568d8374bbbeed7f2181871605cc7eed8d162c00d88ec4102df53a4436fc9247332648b53febfdcb0ba39d6177554e1821983214d20d765dea7444decfb113b5fa31b8c9d9;
  0xa0d04159509ab557c2b9eee74390f0fa9ffc882ac8b4c6b8eacd6690486886386b20c929da3c654021decf27cb8ba090000492dc93226017ee2ea6190d613fd5c8130938223a34cfbbfcd9ac30cd959d;
  0xc08b92012da9f13e8a0a4899f3dd70a7aa55e85b0b75366f9f5fd0b584fb4ec75f53689d41c1b733c36bc89f146300910a8b48ed059b4f2c5e30cd630f4f91f979a225f9db8b80bce47f18b12efacbaa;
  0x21b0d58af010eb189054b0a76cf161c8f619683a18f7e3c40db4e965fbe4ec71b4dafe1c82831d8c3ee493fa2526317937bbe3a6b68ebcd21a6ba7ff79d61f89b9bb8d1edd4d83b1ec073e37828b6730;
  0x8aec149738f399c86e99f0beaa48448801ea0cd975b46ecbf13136797d2dd655d06e740fbff096def62ffc985e19793602baacde4db86a6fe150fa1708ac010d75ba3bb98fbc79b2e6b53278ad3d8855;
  0x9f0f77a91bf6428777449e8824c5c23e9fda435964ad8c751a11c74ef28fe77ad706d0e59d054746452a216f88e9a50e249692e61ec0be5d68e1912a398d83128f16817745ba3385459801bf70061a20;
  0x0089f9ea7b312525b2cadc8c6dd8c57197d0c08e3ae0b12218d957c4552f5205d268f607a29b035cb295188983b09503dc90b4f67f12f458362d79062e82857553f82f20775b6205fe5af290d87fb923;
  0xd8af328af428bd45a94214afaf2a6a29e52d5529548876c20516f3acc7dc198212e905a19ab8f6fcb1319e35ff2b7d9d27fbe9230a217a6b8ff7f0e3c73483cb0b0ada8f2853b302b25557525e21cce5;
  0xbeb7455971d3f2f560c1049111638df38a4ddad812d551d9a0302dc93b3c18ba7a5a076a5319c3a29ec9d0341fe500644e468893ba695ab5581caa712a6b3381449a7f65fd4594bfdc7cde13e9e90c44;
  0x3dcdf109cb4588f66c0d854dcf2638fe0a05e0c4c8ce5ba0adf9e50351bacbd671e57844776fa99778193629703fa953688986209bc937b5eb470c2de6fb96234e789d0cd7c2cfca719244a48bb99a1c;
  0xb5adbc644d0de3e800a39be3ae83b6f33265059ee6d1f5b7f171a40b3d6b377f70924198dbc8928151452cd22d311bde434172b228fb44a673a76eb870dbe94ea338af0870b81416066ffb6ffd64051b;
  0xe3362ef636a2d793558732e6db8e73706bc56c214979b84a9f5705b38afcd671a7d47fba5f05f32c1731773955272338a52765e8b3f8b36ce1b1453992f57e81f5b221650a2f0e7c6fd34807715fc3c1;
  0x9949635a88c7a91327deef252e35e2caaa00bb3d3e9a2ee6f565fa4fb90c7da61852266f8a9530306fdd150497df52126508e95b9088e60ccff0c6dc57b6f2619124d41a841866b51699cd4ae90014e3]) ++ be_enc 53 0xba7472e12aca54e917010e925ada5141cfdb1b6d4344c08d7fd3914de0e7e832dd9fcca45226fc7e7e800dd95430354d8600000000.
(** pykeepass/blank_database.kdbx *)
Definition f_blank_database : bytes := Eval vm_compute in List.concat (map (be_enc 80) [
  0x03d9a29a67fb4bb500000400021000000031c1f2e6bf714350be5805216afc5aff0304000000010000000420000000b52178a734d0b577423679d02ab37dd17cb6781861d216c7d32d52c354ab212307;
  0x1000000090ba3750281556cb96fea4c43545a9760b8b00000000014205000000245555494410000000ef636ddf8c29444b91f7a9a403e30a0c050100000049080000000e000000000000000501000000;
  0x4d0800000000000004000000000401000000500400000002000000420100000053200000007839e86543e0449b3d6cc46b95b4bbab7d519c7eb01d9cf59d64d82f6ab1a15f0401000000560400000013;
  0x0000000000040000000d0a0d0a8e2a5d6c480f8865b158c7114e0d2759699da904624e0fcb4b6a255cd25f41ab071bbe3fba404c9f59074123f45ccdad2fae3e2ffbeba4485f88e918257e6d2222212d;
  0xe6c7c46f0478137e77136968e1bff160b056cc38a72f01cbfeaa941f85d0030000acb3b0899539e16b45bf40874c0bf624d35059fb706b02ab6c2fb55af3babb5f1a6185131cc8699377632569cab19c;
  0xce35fc32d9aa3814f98ee11cfa463a01c55e46bc8e1af03257f481d64835fc191b28192c80ca3b1fd229bd376d7059acc2303e6cb8c8ebb53d65af03b2aa1b1b78f58da0b0edee350808ac908c4f3a39;
  0xa1876631904b68a76adf89540779286d10c8189eaad675c948f5c7cd25f98af9daa491f89733d9a2b8a81605c0c027350aeb410474bf3391223da3d989c1d7d2a1fc07e931a1cf50d5205d34591e9d9f;
  0x90162c6178293e204654f9c88a8c39fa875de9355dedc826254968a3e1f7e0eba50b5d9189b67d41b14a9d4e1df0a36ae6d98564573b97c0169fea48e4c0f6df83d756a8f387553af7442c2d45659106;
  0x4861364fde07ed03f6339fa69422c603b13641d57d0cb0810f966b581b909eda6a4ce15cdef25a08a7b22f9f27dc8b29738d86c5151561a763c624d6e9e59bf524d11bf1a3db042ede8ee645ec08d83d;
  0x22959687d8e36ffd666f5c0b7042f68833aaf372cb17f78398a35659d7c361a4fefda582347c11bf6ac52967faf4a741c20b8f4e1ac0272dfbac92524f55796e26267aae32d6eef9fc6baca8e6549800;
  0xde2368b8a5773e70e36c6424d7edbe41a8629c6b97af0d225844078ca6a389f1b8d054bdfda0ca299abc7bbc2815eeb9d43db4f1e74b90ab239d5995be8b9de66fa6c4204878ca224e19bb95bba6551c;
  0xe872dd1591203a02b24703cc178f65f21f60e11c37d1d8c54f642d095dc8185de27a57ae78da5de49d2afa39af13a3c846b41103f925b8f09c02c734923c51fe3d036d14e8bcc0e711ea85afdc62c113;
  0xb01795d4a8bf72d30a9a0bcf13758ec29c9098e9c19f0e80d84757761d1c1154310a744451f2ba51147b3388770d79e5da46c10ae44186b6042aaa5e078a326ec90cd906cd16b0c487d25dc451909bc8;
  0xdf6c32b96ebc1183f4f2a9855a6175818359d9de234cf9176050fdcd5eadf489b0bc64460ccd2e30c25ddc6fd6ab6d76eabfc45ac579ac9dd8ec91f87a970177fbc1ce1deb9333c227578c3bc1812ac2;
  0xa8604b1a2b32ec75fe50a8534ae8486cb0eb8d44e2798c0c60d70becb4e77aad24313cf253d25037f2cc96b7139a33db18777dcebc670f598661608e5e29f54d27dd767d1766d4f0fa583427e2eef82f;
  0xc37e07258b83b2a67e480b728f7711b828b031cd4fa0cceefcf31b6ccfd027685a39d8dc958109133bfce26786a08690ec66ec19031a5ef9cadcce49f0c00378cbbbe6f065e7a3edeaf7a2ed8eab000a;
  0x96f29ed51a9ddf6667e6e2cc008ce982bcd4b287663df6524d31e8068195efb56342c1e9fb0460d338aa9076044671df67b04cd5fb30060b2b7d9dc4ce0c49d04ddc65cb1a2c2f47b23ad86b4e552684]) ++ be_enc 5 0xc700000000.
(** Transformed keys: tests.py:1222-1223. *)
Definition tk_test3_transformed : bytes := Eval vm_compute in be_enc 32 0xfbb1210e3094d48638a504e6549b3cf92bb882454ebcbebcc8d3bb66fbdeff2e.
Definition tk_test4_transformed : bytes := Eval vm_compute in be_enc 32 0x950b659c619e3ce007027fc3d8a1a62698358f21a6186b13a2d20d3df3eb64c5.
(** Argon2 of the credentials of tests.py:1189-1240, computed outside Coq (64 MiB of memory): the files below are opened with these as
    transformed_key; a wrong one would fail the check of the header's HMAC. *)
Definition tk_test4 : bytes := Eval vm_compute in be_enc 32 0x06e36d85bdb14fb2c7471e4fe2e9791cd82994c77bf101d25486ebbc104e675b.
Definition tk_test4_aes : bytes := Eval vm_compute in be_enc 32 0x0b0ef11325d740dd45e102ce21dcc5a2bab8fc2e7b17c92873e115f4a832e832.
Definition tk_test4_chacha20 : bytes := Eval vm_compute in be_enc 32 0x10d8d276ba8ffbb850dc220dee992e68aad95fb1471baa35e87af002855c8d3f.
Definition tk_test4_twofish : bytes := Eval vm_compute in be_enc 32 0xc416dc3db05453ee03406367a52a6517592e31db4cca93b26e0d56ebb65a2f40.
Definition tk_test4_hex : bytes := Eval vm_compute in be_enc 32 0x4db708f6a7d176b17b26068faee90deb9a1b0262cef28a52ae6129371f73e9c0.
Definition tk_test4_aes_uncompressed : bytes := Eval vm_compute in be_enc 32 0xad7a998f064de130797d63d99112f9d86260b8f5ba4078828df5da9a07c22f74.
Definition tk_test4_twofish_uncompressed : bytes := Eval vm_compute in be_enc 32 0x173a4c8a3166e5e1d9687767a30ed2f148e29ed1af37ff87cc575fa695ae9595.
Definition tk_test4_chacha20_uncompressed : bytes := Eval vm_compute in be_enc 32 0xe253d27075e09aba51ad69b889ffee53389a7020ea3a9f679ab3c049846d71c7.
Definition tk_test4_argon2id : bytes := Eval vm_compute in be_enc 32 0x93d5511bcc5235e35ecf9124703c041df21809e39c4628da906d8828b004149f.
Definition tk_test4_blankpass : bytes := Eval vm_compute in be_enc 32 0x8ad81fcf16894ad86f5f2328ccdc80985be4ba4294dee1eefff1a6bab608f612.
Definition tk_extra_content : bytes := Eval vm_compute in be_enc 32 0x3144a17890ff97d7b717841a7ed8f8a35a9cf85e98ad323f4a955af0b040e0f6.
Definition tk_blank_database : bytes := Eval vm_compute in be_enc 32 0x0962cbeeed2e51b1417f31f21ef90cca3b205fe9bd987232ae23136a83be0cf7.
