(** The texts of the round constants and of the two matrices in
    /repo/spark/pairing_bls12381/constants.go, character by character as they
    stand between the back quotes (strPOSEIDON_C lines 47-2325, strPOSEIDON_M
    lines 2327-4517, strPOSEIDON_P lines 4524-6694; strPOSEIDON_S only for the widths 2
    and 3, lines 6703-7163).  A width without a branch leaves the Go string
    empty. *)
From Coq Require Import String.
Local Open Scope string_scope.

(** constants.go:50-124 *)
Definition txtC_2 : string := "[0x9c46e9ec68e9bd4fe1faaba294cba38a71aa177534cdd1b6c7dc0dbd0abd7a7,
0xc0356530896eec42a97ed937f3135cfc5142b3ae405b8343c1d83ffa604cb81,
0x250f5116a417d76aaa422952fcc5b33329f7714fc26d56c0432507fc740a87c4,
0x264065ad87572e016659626c33c8213f7a373b9b8225a384f458d850bb4a949f,
0x2bb8e94ad8d8adca6ce909ff94b8750729b294e4400376da39e33fda24bd42af,
0x19051065d05d861ec813c15291d46a328f6201b21ad5d239d4f85fbb09a5dbae,
0x245bd0617aa449618f5bd4550aac7b8e08d4d1c017165943cdf4776cdff3434a,
0x9fb1a1118074ff79d8acbf5b02131e048a1570155e0f2b1c36ad091d491a88f,
0x234ab504bbae8198972741952f78b7eb018ea192f05e54c1484ab8973ff66d88,
0x1f66e509b84c355ae3d4c3513a282fd48f9c8c6439f42a7835fbcfe0f2a324c,
0x1b22f5d69d725e6002cf00dd9ee62d1a5af0efdc4910f54127a920ccc43f91fa,
0x252b55edead135f852968b7f1c4f490fa659ecd5b47a78a7db91f65a6dfc23f,
0x1773ae2e1637c92ad0677c2a047fea8eca4b53303f21871f6892a2c0487d7ff1,
0x2d57b02906cd0ab82a79e76faeef6f87666eac093cf7715645d5ec9f7ac732f5,
0xa16f3a62824b281e8b2ddb8fc391a498fb061317faffa03696f834596313d93,
0x1666f525f7f4b6988d2a37834ab747eae0587757b788eb7f1e26b08e36a08591,
0x5da44f8e0a3b8bb13231f0ca25b50b57f5c82128e1dfec3e541d912ebe17b76,
0x9a39ba9993303ba191bac8bdb3e0144dbfb5f39624cdd9524dc7861633bc95a,
0x6c0fb824a19202d30ee6b418c0029e100e85a6d158f9f2a828dfd2ed0920a68,
0x387d8e056b2b176a9776b4492cb3b418adc660627e52bb3324283bf9522395d,
0x147a1af82036ef5b28a7a37bea40d6ac3013cf1b62358396bf7156f5c2dc9684,
0x3038d92060daeaaf1bd0482bd3f0613d88e8dff90a7a0525f9227e4cb7c6f81b,
0x72940aa1d538a5a39a323f9e5d65616cf6c223339006f9789a97245532908f5,
0x2d3d604949f4e14c70b8a879aedec49b3a367ba216af048f464ed6f15e2b9023,
0x225b9e4f35c7549f80774c2b4d18309b2dcf7c7287b982e49746a176641e73c5,
0x1ea781288fdf13b2190095a2344828e37dfe81c75a09709f0d139bbbf6c70414,
0x8e96c3e7e8de4432b202405458468b90dc6890d4cee128b3502e5b6cb4aeeeb,
0x5b43da7c8aa29af6dcaae57d070b49d29ce889a64a4ac183e85d55b366c805f,
0xbec98a034e3b8af7ba4861f1ad5a48dcef7c996e7a51c7cdde724d8f610e52,
0x2eb67ccfa29e2b422b9f84a5d0575fc435b30fcae303039480be384ee4ebe72a,
0x102bbdc21a3f147bf04eedee5d70bd084a7105c631c86ecd2c4e8749a13915ca,
0x274bc16c88721babfd5bbe8d8562c1bf127ae38915280fbb8e3115cad3582f79,
0x185cece417549b25283de04511f769101c8850b409d4928ab831611351bd9938,
0x13c73fb043f7e978bc9cfb55c7faacb4f4c823674abe17737059ac0a32c36007,
0x24b3a1d83308742b360c9c60595673e201cdd4cef5a4145c933c4e5969481d70,
0x18b5ae94df9ec97aaa2a8f0f42425bcccdc8266a070f866ef0f48d7a3744398b,
0x20eb398cb958cc2ccc7cb1fac38501abbe38169b2d8522d9e5f099f2d5905cb4,
0x1e588dd3ec8b0d252c2c7c0c78a02b22bbbad1f4dcaa2e78a8b8eef2f4e29344,
0xf8bf3bd6c22ba3b1bf3ab2e3fb40818cd4217ffbaf294ca42331d4e3043a0a6,
0x388c9fcf30fc2841d648f46bad01dd10bee9dc184d25eabc9f617021109cec3,
0x2bb7f397c5941ac67befa8b232f15c8853dac263da793555441a90cec83b6454,
0x17f389b52f9ea7a98874a4a31ef6a7beb43fb17db0e499250bb3f0181c59fb21,
0x3a2090eacb897a31fb10561d560a9aeec24b7ad14d17b145f20c875a0b28c7c,
0xc398534f0eb580f1fe4bf64553389e67cca4714399430e09619dcbee17ba099,
0x7095ac9fda46afa7f181259e3635feffa7f11ee63f3ee777a5cebf4822328c4,
0x2046f7cf1c8f13ef2b69cbc8bc0d5d809f82568abe2b33d1cd060958b1ced683,
0x2c274136a5de2849de6e7f92f9097296501acb68d56138fbcb660c4cb0f69107,
0x1c4d5178acb5c6b6eceef23afc6f16ec7b0383094cb6467e8d0f4507b3cf74c3,
0x65b1447d0d64ceced116785b92c63a6a7dd9701507dcbe8b909325e28f7b8d3,
0x2265d7e244881220c81a193d979330409c9bfa333438951340e023e7b72a1961,
0x15b12b355af7e05637a1c76e67f9cec6fca8a6449b37669f6850502256b30aba,
0x1a1522fecc6ae028e4d3e3029497b88f35c2b48c687af168ec2582d9075b4387,
0x22f56e79e81b7496e472a641a053c414bcc53b0a9350e2589240803076f58f26,
0x202ddb66d0988994e7aabad692ceac4e2324672a17ab8417d1ee278afd17fd0c,
0x12b0701e8813c5b21a8e30208f8f1158b96cd428ae77bdea72f84510f73edfce,
0x1e63fd20e706e1407c8838ceb26b84c9fe693fdde0eb1e1a9df7e84e53eeee7e,
0x20a16c5a86256deffd15af174c39f9d9aa11500676ac7e570088280dd1896259,
0x1c8f8bf8e153da55ad5aca2eaaee38da563e0435c0f2f37c27558fb9bae0a3eb,
0xd7732687bb7bf5f3aabcfdcc4fbb67e159c1983213e416c3880124fddf187c9,
0xcdd04475a86999a2edcbbbf8264b195e108b3b60b6475d835f6ccef9e2f6865,
0x2fe65586cd4e754b4c63a88c2ed3f9ba0e3bfa43f547b41153560c214fe3cbcd,
0x503cf963c8273604e659128ec29261f62399815d98c56dbf4f2837c727ad4d9,
0x1ee48ea27839061b78379936f6d97ca9400b393ef5fdf38ef1475c8742cb334c,
0x1a423f8d8fc892b22d7cd5bf0197c575c579e83563d04859d73b2c1c5c0413f9,
0x69a0da50133e9952f00e61778972a7be0e8d8ab76c95616ae465636abb97ec7,
0x1bf7879dd42f2cbb91c65a0976356f67964c2f94dfbf0e44cf2b9909165d8614,
0x1b23dccf485822065c8fc0afe610be7164e25056267f6c4a805fffd4547a0b98,
0x2ebe90d6f6fdca420e0c2e004ce5c5a4409e564c9c4f3671e3011f627bec7c2e,
0x167cd6930535a816dfebe81d20c376e77687760f3a2fa0da290b2f4d6c6863f7,
0x8865c10f4a633c54ccc8b68b79df285f19f1210374cc64e3c8a966d4f90264b,
0x1de902fbc0bf01951ca25abb39d78894721b37e071851b03a72cc6b833b7893b,
0xe3eca007699dd0f852eb22da642e495f67c988dd5bf0137676b16a31eab4667]
]".
(** constants.go:125-209 *)
Definition txtC_3 : string := "
[0xee9a592ba9a9518d05986d656f40c2114c4993c11bb29938d21d47304cd8e6e,
0xf1445235f2148c5986587169fc1bcd887b08d4d00868df5696fff40956e864,
0x8dff3487e8ac99e1f29a058d0fa80b930c728730b7ab36ce879f3890ecf73f5,
0x84d520e4e5bb469e1f9075cb7c490efa59565eedae2d00ca8ef88ceea2b0197,
0x2d15d982d99577fa33da56722416fd734b3e667a2f9f15d8eb3e767ae0fd811e,
0xed2538844aba161cf1578a43cf0364e91601f6536a5996d0efbe65632c41b6d,
0x2600c27d879fbca186e739e6363c71cf804c877d829b735dcc3e3af02955e60a,
0x28f8bd44a583cbaa475bd15396430e7ccb99a5517440dfd970058558282bf2c5,
0x9cd7d4c380dc5488781aad012e7eaef1ed314d7f697a5572d030c55df153221,
0x11bb6ee1291aabb206120ecaace460d24b6713febe82234951e2bee7d0f855f5,
0x2d74e8fa0637d9853310f3c0e3fae1d06f171580f5b8fd05349cadeecfceb230,
0x2735e4ec9d39bdffac9bef31bacba338b1a09559a511a18be4b4d316ed889033,
0xf03c1e9e0895db1a5da6312faa78e971106c33f826e08dcf617e24213132dfd,
0x17094cd297bf827caf92920205b719c18741090b8f777811848a7e9ead6778c4,
0xdb8f419c21f92461fc2b3219465798348df90d4178042c81ba7d4b4d559e2b8,
0x243443613f64ffa417427ed5933fcfbc66809db60b9ca1724a22709ceceeece2,
0x22af49fbfd5d7e9fcd256c25c07d3dd8ecbbae6deecd03aa04bb191fada75411,
0x14fbd37fa8ad6e4e0c78a20d93c7230c4677f797b4327323f7f7c097c19420e0,
0x15a9298bbb882534d4b2c9fbc6e4ef4189420c4eb3f3e1ea22faa7e18b5ae625,
0x2f7de75f23ddaaa5221323ebceb2f2ac83eef92e854e75434c2f1d90562232bc,
0x36a4432a868283b78a315e84c4ae5aeca216f2ff9e9b2e623584f7479cd5c27,
0x2180d7786a8cf810e277218ab14a11e5e39f3c962f11e860ae1c5682c797de5c,
0xa268ef870736eebd0cb55be640d73ee3778990484cc03ce53572377eefff8e4,
0x1eefefe11c0be4664f2999031f15994829e982e8c90e09069df9bae16809a5b2,
0x27e87f033bd1e0a89ca596e8cb77fe3a4b8fb93d9a1129946571a3c3cf244c52,
0x1498a3e6599fe243321f57d6c5435889979c4f9d2a3e184d21451809178ee39,
0x27c0a41f4cb9fe67e9dd4d7ce33707f74d5d6bcc235bef108dea1bbebde507aa,
0x1f75230908b141b46637238b120fc770f4f4ae825d5004c16a7c91fe1dae280f,
0x25f99a9198e923167bba831b15fffd2d7b97b3a089808d4eb1f0a085bee21656,
0x101bc318e9ea5920d0f6acdc2bb526593d3d56ec8ed14c67622974228ba900c6,
0x1a175607067d517397c1334ecb019754ebc0c852a3cf091ec1ccc43207a83c76,
0xf02f0e6d25f9ea3deb245f3e8c381ee6b2eb380ba4af5c1c4d89770155df37b,
0x151d757acc8237af08d8a6677203ec9692565de456ae789ff358b3163b393bc9,
0x256cd9577cea143049e0a1fe0068dd20084980ee5b757890a79d13a3a624fad4,
0x513abaff6195ea48833b13da50e0884476682c3fbdd195497b8ae86e1937c61,
0x1d9570dc70a205f36f610251ee6e2e8039246e84e4ac448386d19dbac4e4a655,
0x18f1a5194755b8c5d5d7f1bf8aaa6f56effb012dd784cf5e044eec50b29fc9d4,
0x266b53b615ef73ac866512c091e4a4f2fa4bb0af966ef420d88163238eebbca8,
0x2d63234c9207438aa42b8de27644c02268304dfeb8c89a1a3f4fd6e8344ae0f7,
0x2ab30fbe51ee49bc7b3adde219a6f0b5fbb976205ef8df7e0021daee6f55c693,
0x1aee6d4b3ebe9366dcb9cce48969d4df1dc42abcd528b270068d9207fa6a45c9,
0x1891aeab71e34b895a79452e5864ae1d11f57646c60bb34aa211d123f6095219,
0x24492b5f95c0b0876437e94b4101c69118e16b2657771bd3a7caab01c818aa4b,
0x1752161b3350f7e1b3b2c8663a0d642964628213d66c10ab2fddf71bcfde68f,
0xab676935722e2f67cfb84938e614c6c2f445b8d148de54368cfb8f90a00f3a7,
0xb0f72472b9a2f5f45bc730117ed9ae5683fc2e6e227e3d4fe0da1f7aa348189,
0x16aa6f9273acd5631c201d1a52fc4f8acaf2b2152c3ae6df13a78a513edcd369,
0x2f60b987e63614eb13c324c1d8716eb0bf62d9b155d23281a45c08d52435cd60,
0x18d24ae01dde92fd7606bb7884554e9df1cb89b042f508fd9db76b7cc1b21212,
0x4fc3bf76fe31e2f8d776373130df79d18c3185fdf1593960715d4724cffa586,
0xd18f6b53fc69546cfdd670b41732bdf6dee9e06b21260c6b5d26270468dbf82,
0xba4231a918f13acec11fbafa17c5223f1f70b4cdb045036fa5d7045bd10e24,
0x7b458b2e00cd7c6100985301663e7ec33c826da0635ff1ebedd0dd86120b4c8,
0x1c35c2d96db90f4f6058e76f15a0c8286bba24e2ed40b16cec39e9fd7baa5799,
0x1d12bea3d8c32a5d766568f03dd1ecdb0a4f589abbef96945e0dde688e292050,
0xd953e20022003270525f9a73526e9889c995bb62fdea94313db405a61300286,
0x29f053ec388795d786a40bec4c875047f06ff0b610b4040a760e33506d2671e1,
0x4188e33735f46b14a4952a98463bc12e264d5f446e0c3f64b9679caaae44fc2,
0x149ec28846d4f438a84f1d0529431bb9e996a408b7e97eb3bf1735cdbe96f68f,
0xde20fae0af5188bca24b5f63630bad47aeafd98e651922d148cce1c5fdddee8,
0x12d650e8f790b1253ea94350e722ad2f7d836c234b8660edf449fba6984c6709,
0x22ab53aa39f34ad30ea96717ba7446aafdadbc1a8abe28d78340dfc4babb8f6c,
0x26503e8d4849bdf5450dabea7907bc3de0de109871dd776904a129db9149166c,
0x1d5e7a0e2965dffa00f5454f5003c5c8ec34b23d897e7fc4c8064035b0d33850,
0xee3d8daa098bee012d96b7ec48448c6bc9a6aefa544615b9cb3c7bbd07104cb,
0x1bf282082a04979955d30754cd4d9056fa9ef7a7175703d91dc232b5f98ead00,
0x7ae1344abfc6c2ce3e951bc316bee49971645f16b693733a0272173ee9ad461,
0x217e3a247827c376ec21b131d511d7dbdc98a36b7a47d97a5c8e89762ee80488,
0x215ffe584b0eb067a003d438e2fbe28babe1e50efc2894117509b616addc30ee,
0x1e770fc8ecbfdc8692dcedc597c4ca0fbec19b84e33da57412a92d1d3ce3ec20,
0x2f6243cda919bf4c9f1e3a8a6d66a05742914fc19338b3c0e50e828f69ff6d1f,
0x246efddc3117ecd39595d0046f44ab303a195d0e9cc89345d3c03ff87a11b693,
0x53e8d9b3ea5b8ed4fe006f139cbc4e0168b1c89a918dfbe602bc62cec6adf1,
0x1b894a2f45cb96647d910f6a710d38b7eb4f261beefff135aec04c1abe59427b,
0xaeb1554e266693d8212652479107d5fdc077abf88651f5a42553d54ec242cc0,
0x16a735f6f7209d24e6888680d1781c7f04ba7d71bd4b7d0e11faf9da8d9ca28e,
0x487b8b7fab5fc8fd7c13b4df0543cd260e4bcbb615b19374ff549dcf073d41b,
0x1e75b9d2c2006307124bea26b0772493cfb5d512068c3ad677fdf51c92388793,
0x5120e3d0e28003c253b46d5ff77d272ae46fa1e239d1c6c961dcb02da3b388f,
0xda5feb534576492b822e8763240119ac0900a053b171823f890f5fd55d78372,
0x2e211b39a023031a22acc1a1f5f3bb6d8c2666a6379d9d2c40cc8f78b7bd9abe]
".
(** constants.go:210-301 *)
Definition txtC_4 : string := "[
0x19b849f69450b06848da1d39bd5e4a4302bb86744edc26238b0878e269ed23e5,
0x265ddfe127dd51bd7239347b758f0a1320eb2cc7450acc1dad47f80c8dcf34d6,
0x199750ec472f1809e0f66a545e1e51624108ac845015c2aa3dfc36bab497d8aa,
0x157ff3fe65ac7208110f06a5f74302b14d743ea25067f0ffd032f787c7f1cdf8,
0x1b0f68f0726a0514a4d05b377b58aabc45945842e70183784a4ab5a32337b8f8,
0x1228d2565787140430569d69342d374d85509dea4245db479fdef1a425e27526,
0x17a8784ecdcdd6e550875c36a89610f7b8c1d245d52f53ff96eeb91283585e0b,
0x9870a8b450722a2b2d5ee7ae865aaf0aa00adcfc31520a32e0ceaa250aaebaf,
0x1e1d6aaa902574e3e4055c6b6f03a49b2bbdb7847f940ebc78c0a6d3f9372a64,
0x2816c4fa6b085487e1eec1eefd92ee9fef40f30190ac61009103d03266550db2,
0x17359fd88be36ba867000e83f76ffb46660634efbad15dcf4d4d502d427ff51c,
0xe3004cb44ba455a3f16fefbd0c026404cbac203c0f236baad879610b8661022,
0xa55f276af1ceb6ebc6c6820f334b26f11ca4af98c833bc1b496193d6b04a7ca,
0x1ee4b0458adcd4c4861a27adc1404a5981d320b6b8e20e51d31b9b877e8346d,
0x14315e2753e7fb94f70199f8645d78f87c194a4054e69872b3841da1b4f482f1,
0x2b7b63ecffd55d95c660f435ad9e2e25f266cb57e17ebd1b6b0d75e88a6a56d6,
0xbb56fa3e9fd48ab46d4e7295bbe1204b652ebe958221860f56e38db80d83c0,
0x50653bf5dd59edd6d15fa6071f5005057218b33a8f92a58b9c2656081249f82,
0x2c575423e24b522655c5a976c65d069287900c8d5825514098c5b13c86f1fcdc,
0x2ff3a2ccdee91e09a32f74232b704cdd99f72c1f78557a2ce568b07e218071d7,
0x1144734901a81c1543b8bc6fc9d365f50469eb89949491d3693dbe9c6238d90c,
0x1eff9a954e24bcd4af20b6ab74d89e1cd38bc694a9e75ea6da217a98db80cd22,
0x14707de7496c5638f97fe9bd7d485c20ead6bfdbfc0599791e49fad0301cd6df,
0x13d0de341ba819f90fe3ef1f7ce0a54d8538acdd9b3ef840a91d48ee536042b8,
0x26520ab1d20055daded712d59b07088458c18afbd0da58aee9f151a903372ba1,
0x68cb4827ac485fc6e7537a3c0a06d08a4c2790f5c65d9866d75296999f7495f,
0x7d6baaa2e587c21b03dfa0eb71136e2982cb389b438c8bc282748d0e674e89e,
0x15b92d36db02cb16b831eeab2e6ed75d126ffbc274cc3362370851526de13d27,
0x277b9ce89133de7b7918ad5fcfab7323ef5b9c1916b588cd7e5a0d814cbc3395,
0x2ae847b66b3c5d73b70b733040aa86c51f737092d65c3492d529000fa1802b24,
0x2fa3e8ae1fef974cded6aba6dc25cf567e16e0af29e675706643f21bf8efd651,
0xb1d4b9508cec4d19aa53f4efe46c57952dbd368fcbcd454a8b1087bc18a2088,
0x2d381014d01578b888b3273270babdc393ac392e7958be0478947fafa569bb0,
0x2e79a827c85406242523a94431007021bc865a45cabcba4368c41d4486fefec8,
0x207c99b7d594a5c61d7e60cc2365c4c0c804cd434098af6244f0a00c259b347,
0x119c124086ea58ebb83f14f262c693424360e97e6fb42ae8596badbe9edb2dca,
0x104ff38cca0f00173ccd0b68bddba09fc543f074f753bd8e413f8334f887a251,
0x2f5b5377bd156f89845811eb262436638dc038b8cb10e147a87df4c0e2384253,
0xf70e8e02d1d23968930a8e0db69b1c20204f3e3b4cecd101f81476d0b5ea996,
0x1ac4653a51071ae722f90a03f006d8575814db782b7f19f607dae4d56ad586b3,
0x12b12600e3bfd8e7bdfae5ef9c4f3805fa41e74acabf7de817823017a8b23db9,
0x11b9d19908919dacb7e0f8d0ba77286d417529a18a1d89c405ed1c30289fdd28,
0x2c350d245f4f75864744f88dbff8fe335b00f4fb688895c1363a7484ace820d3,
0x16a7f76fd2b2147db6ef94c22c78bff782de17ef73e52da7df82603f422b461f,
0x1d18d8024be1e96ec25626af06a139f6093545aa504033dac7e285d1cc3db3de,
0xc8cab1ad5998072945b9b88228f53c295466819fb94d8f6a9ed449be8f7c18c,
0x1a68d133d703cd406ca30041913ce3423c73b13384187ab1530109b756ad4f7a,
0x24a58b9e86ce823ff4c45342941417ff23d03c80fcdef9498ca0d860855e01a9,
0xe6315c93fbb89d38021148b6c35320fb793c41c6a4386d6aed6acfe2f952c57,
0x2c3806d99a69ce63299e876f5f218c7295d87224795d7568d558696e34c692f8,
0x59c893a771e94774d49a356494568dd376856ab89705dff25db8273860fa04e,
0x1166d9819c4faae8982243d0deb1f8977027d5cc56bf52ce260bec5e27e8b0f5,
0x12806fab3fcb09fc2b79406c3c203c4965fc7259112af2104312e1537327e0a3,
0x172015e0e33736058f60aa33e82d3dd73dc3ead89f98ded0dba35dcc1d8bda2c,
0x77ba18800d852d0a34f70ae8cfd68a080296bf9d47a1b40de7e6fd6392a0d30,
0x2094ecd768bfa8f0df0d78d0d946e1aff4a2d38e029e41479d6e3c0fe79fa8b9,
0xccebd302afe84c20ff774d3c1f650ca7cd0bca08baa1e261da9c7441a823f89,
0x5b9303053bb40c73671f5d55b4052e0d5549871f1b5283f01485a6b568cd05,
0x2527289084ab492275b4cd67d38311a2b816eaa68ee6bdb2389eeefd6ba4c721,
0x2222f9738290d8d5f2a3eacdad95f12cd4e7417ed2661b012f6448c7503877f2,
0x226c8208f26d69e6b7e02fe26557e6bd160fcbe27ee741fd1e581161c1789354,
0x216b208c0261f3c91faf609e15f7a9d4853e40d9204496b2441115d73c2941c5,
0xe0d660e046a259f3bad6829729b6ae3151fbcd75de33b122fe134ca3d5a4dd6,
0x240f039d2026b3266f39ba5c4ec48ac6ace88aadaef991498cd52daaa0ffbba8,
0x28c8cccf7b40a2c3cfd2eee0ec4d160a876a4dfeb408ffe333e92fa5e1ee4d79,
0xd7f81b4b46d4f247c4243f045a852cc957d2b2923d28eb2fa77b5a9844efd69,
0x2be432f87b2c5094a82c788457651dd8cdb0200ac3b42860cbf54475996b772f,
0x13ea39f2d63d9adae187af14dd07b533d45a63435e0ea4e5e555d35e70d4016b,
0x29e3b1afe1973be9cd1cf4b047325abfaa65cf2b98ff3aed47870461977ec921,
0x8db7d684e6b841b5e9692498f95a1f950a1cf1eb638bb4e48f3bc1a3c571197,
0xf4f1041a976aa05196da1c042124e3277ea1a28fb6eeeab4bec1243bd31618b,
0x5a9d0526d6f18c86b255f00e86ec34e7f8a26c251b51c21fe4c12bdc4c0ff1d,
0x284b0304dd6ce669bcf650c5ab85c89d4410d472aa6eb00df1b8d17e52f2f3ff,
0x2363e9b01a0163598962ff86907002f95902e725049294ca7ab10cc7aa3f06ba,
0x2c2db12647c4c0461dd3290a75c5f2fd8d7f115b3e040cb05dd7e3ad260d842,
0x2e3c42f671431f9560f3d0863ac445052422d5b993e9fda6b81486b14ffe3a74,
0x1d38441f228c0ce22ff2882560f5d7ee3b4c0caa101371cb7782ffd97af5fff1,
0x268141b0e49c59eab1d573ead4e2e1f379364dd133f2cec574c25ade2c794287,
0x2209cb2e187df1522810d3f28868da6cf52af9a65dbd7b806049f472d966374a,
0xa5eb2510e6f804d1830d7974ac1677d082034e5388bfaee91a319eca7c1ffab,
0x1cb2864c38800736f8f3ad98669d3ad7a9d5ee52138e96b8a7015e1089e36ae0,
0x2af8ed05bfc8f8ada547ee9bc6c7c6c5e8c15c6c0d380a3f9aa277273321b54e,
0xf85d1593b35be03f79b222885555a252bf1f0a3911d784132c49b1a96ac0f3c,
0x29095192ec53e0b859eba456295d95bc4567d351a6dad391b8b89707855008c5,
0x1a92efde1f5fa56aeb02b4c4b8f51ac80831f898c7843407113fbb6011177854,
0x2a05e8deeea15e4377c080aa70fd6a86dc73f3fdfa6b55f5610614c184b0b02e,
0x12119f3b019cc3fc46ecc80893e86f510b1dd4030b2ce28c9dadcd1e71ad4891,
0x42b6ffe687bc23a2bf6b73317286a543c60ed122fc225aae742c3a1c2dd3a1d]
".
(** constants.go:302-405 *)
Definition txtC_5 : string := "[
0xeb544fee2815dda7f53e29ccac98ed7d889bb4ebd47c3864f3c2bd81a6da891,
0x554d736315b8662f02fdba7dd737fbca197aeb12ea64713ba733f28475128cb,
0x2f83b9df259b2b68bcd748056307c37754907df0c0fb0035f5087c58d5e8c2d4,
0x2ca70e2e8d7f39a12447ac83052451b461f15f8b41a75ef31915208f5aba9683,
0x1cb5f9319be6a45e91b04d7222271c94994196f12ed22c5d4ec719cb83ecfea9,
0xa9c0b1916a8e41d360d02e6e2e5d1b98c34dfcec769429c851867e46e126fa3,
0x1dd6ba3731e49d21e8d36e9d4d1edad245ebf9bdd9ebb60a252e4804a6390f6a,
0x24ae2a67c3d521c11a11b7112abbdee30647107b808866a980837d0d7da4e3e0,
0xd20c9310b5c14d9ef12866af5a45eae3ca9be16d200497066c8b2ee96781d70,
0xe047c9821fe94d55d400d763a66c4c6169993abed543c7284b4a35430019445,
0x29474ab799b1e13948eff41d2ce79bfad335d09110157076988ac207e10c81dd,
0x3899f139d0dc4b281be3b74ab4c70789b7f41e7aca47ea2722a20d79afbca93,
0x1866624f761ab8dd7a91c5f37af5e47639951d5acb6b1bbf3b96ca273f71029d,
0x13c119f36718f7d5f09ad8541325a13acf6b34db6d9ee2af7ea06061240f3009,
0xe4a1008158077402b11f13c08890b739643cc8e93fa44487b5a1575dd867fd7,
0xef505fd44ac10a251b670dafe14cabd9ada9e3002210ac9c3876f37de4e7ad8,
0x1d31e4e2a5978b7491c43d367470a5a5d1445b6b8129a5b9a6fd238405720de5,
0xa979ad5428d481cb624d9d504524a9694ca5cb4421b5d1dc6af2c030fbeac39,
0xf7fccd2ec8bc6ed9ce3682f38aa291deea9373f4995778bf762ade36d6ab2a0,
0x2691b924dfa123005f7c078d9bf8706defe99c2ba99bd6ee53b153e9fec7bb80,
0x2077df6510b4860e56b913bef3a80dbc464b0e4678add60dea7a9517463220b,
0x29ee09d8af9d24ca49350ce2e0aa47d00a3dc21bafbfac1c9ba61c58e2993e8c,
0x8b292c661d427506b9a01916624f3cde332aaced9f1a494a733cea6f25bfaad,
0x2583699ce536a757b22e4713edfbb050092c84abc72c90ad87393a1da9a4cf90,
0x1e3f1b660223d65ad88999475374f6e25fd4148eb8110a0b12cffa19657b0b66,
0x20f3ecbb37c34aec79131455461259e59b222f0ee8e02f3194cf62a9ad4c3448,
0xdf4f5088e4444fbf87d553ba62dbda95696d8b9cf6210b1c85513b1776fbc64,
0x2b348effd4c9cef00a1cf4dd67dd664b2ffe361a807c589a252c63bcbfc6833,
0x1ba1e522fcb153676cd8f20e82256f0327c000fa96b1b462fc84b556f26a86c7,
0x294c44df8e68c96144e964c37bbc5766764ed3550aff80dbe9d3fa74419fe50,
0x313716eec6dcd8a602ca040700498dc04c77dfe2194753c59bc818c1d2636a1,
0x287dec74696d663e2359f68225de955384d960bbafb90967429a442e19e3ec61,
0x25e42f72c6be0942311ba097cf365683db4962c8204fec9213f0f8f72c1946be,
0x12b6881b96654fe1768c242acd5399b08639f081a94896f5ea6da70b6b475c91,
0xdfc2b54546fd3267d7be55c716cb243ef18118ed9498c8270449bd9418afdb5,
0x27dd55fe0d5c0ff56ad4890fa029c27c5f36d04cdc73899ab99b2872b28eedf0,
0xc60962711aef16e7a2ce59f587443ec8b41ef8dcfccb38188adcbddd32f173f,
0x2edc09feb267c6b586e62fffe32bf5f16c28b585986b81116684b7e8b40d42d2,
0xaf8386859db252ff295a19466d8d100622c90502137aa1cd4c4bcc9656d11e2,
0x121f218392f73d4c16abe382102a459e6c080b3ca4eda51a23e651a13a680550,
0x1ea38273f5d59e65061f8c775c571ffc75ef67d29405b5e02913cb3019d56f8e,
0x9bd2349005699bcc0ac35b627e2f8f08bfc3b0bf30b146f37742ac1556187fe,
0x91c505b1e92448c11aea22aaac4d44f6a7f2132f89e91b7f55f9404696c1433,
0xb316f1c29689d4f490f7fcdd5e9f2d256d443ba14cda4bb799b0573a931a99f,
0x2049251919a8f3f4398188b81f99d2e2d0e3f5359cfa55bdf3aa75fdadf367e7,
0x1fe7f9eb6788101908814168e3e4cf7a899a105bf9e584af0064188a4aac55bd,
0x158e6579b0388153b0acd630ea94de8f6d966d529c2d01b9e9b1c67c1ec1d570,
0x1994f82f27153afb9de2aa3f4be05c4b2c487e393dcedca2566aa6b7fbc3696b,
0x1b6250553e8629a5a8a40b568432ce7dbd83c87603eeccc8dad572ccebef6e1d,
0x20296940a7d1eded2ae79fd78fa2ac11abb2210bf24542feabee71f0d0d7c9e,
0x2553943f9e0ffce9c297cd31c29f1fa5f01883cc9e504fded7a905032c170c89,
0x1c56eb362896c2f00ad18faeaf04d577f5feb4db4e077965c38f2eaf5f7be08c,
0xed8857205e0680055de7e822b6f7d62ac0f75fef67da1ff7b7735208885cf90,
0x118f91185a09355f9d8c3f556367a2bebe79e7d9528a8d72a592681671aac75,
0x2a71e6a67abdb25a78010fe6fe0a20d1d84e21cba75ad55937dc1834c13af0c5,
0x2327dbc05997ce8575680e4b8929d4e9ed25fb9204277d603061986dbee57e0,
0xe05235e01f21cc3f2971c382d18c14e41785a5ec8d447cd93d13281792e6d6e,
0x98afa2ea7ff065b2adfc4ab00f3b04496c1e490eab264d2370b107e5a49204e,
0x27bddb7bf06eaa63419adae44209dd25a4e35edcb863b009bd34ccc4905d204b,
0x2704406bc806f4ccb19085cb9d3771b12ab5ce7aabf0601e9e06a2bc98837ade,
0x21c75c54664b9fec86756aa9027261975244f42cf91c9cc0b33c2a62b756a3ef,
0x2be84c1d84c16038ea5f933290699daaaa8164c5ea39a02bcbddc66cf69fe8ec,
0x2c970e41d48649cf013c676c8c688ac165563720d1d5f32628ac5b239488a96e,
0xe1ad2660a2e958daa1f2654b3a37fee60546ca0327150733070742edc806435,
0x2060ee7fdf775fc7e389a55376374c9e35d5c8763d597f426304e236f577b829,
0x1e0116818c843ed86f09daee0a581af10d52deeadad77656e736eac08e6f0f17,
0xa89c1498ef25a383d886bb58424e6940ac399e3e557e9de951a697c54a7576c,
0x303743d6f36d925e1097483350f5bd2cb297d4ec9239209f63c516b849a67e6,
0x8cf44446d968430232df175d462b9c9b0e2e2c37e8406764cb96c7c3446018d,
0x2419811cbaeb3f551b0a9232eee5d53e3769fbcf5239533074375f1b00777f16,
0x4237c622626db376b774849dbbe876809082f1b13f5824f4c58369f27fe7b6,
0x1e5b490c72eeb607e114a5cb87a8494b178937cdee34b9e8e947342c14454558,
0x4265333e59e1a5ff749203cb4a5d1415a72862c61380b1c242d0f32ca15b97a,
0x189deaf74258451ac4da682532be43d24a5c683293c1ff7486de26d35d982e86,
0x4ec516b0fd42fa53a34905cfdedaad021b36399d03d8263ae08c46af3eca76f,
0x2ce1c8a00845a82b3aa1b6642fc988578576cef86196525e6d595c7701ad700d,
0x247816fd0d34f9d3b396917478605c94a1c052a6ed663bdc344e7aee9686b6b4,
0xc676dbe6c494d5609c444de622bcf60cf555091a507fce86477019daea987d,
0x1cb395ade530fc2407aa7b2148d2dfaee30f4ddf258fc149cce3c5cde80a85d5,
0x190e1494e3cfdada3b9e65d8fe3c1ec769540da023f9ec2e56259f6a56890b0e,
0x18f2941b2335138336c351a792343222a845ee0a2ea5a3b9160c1d6d9b229fe2,
0x14ea23ce8b2312e07df57e0aece1da5d2c0e01f757e6a5c86ab5e403688544dc,
0x2818ad1005f4efb5d554361a29f85ea10940d6e71f38e8369beff3563a660bbe,
0x23ce3a9a522915a281793977b49054c37d65f90b841e0ca90817bab49d79db4a,
0x6c2ed2be876309a9b3b44ece37b1c42382927dd04249658a3d41e3f38d5e022,
0x18b6740f72d77ebcf642b945ca2ed6c8a9853a3749d7fab6051e4ca36f44fc42,
0x1feacb9eb2a6878061374d069a9dae328369ee63e75a1b99cdb06a48b0d9976a,
0x1a44ee4565a967647300c75ed2b2543d8d45d5477fd606a356d1073bd13831d2,
0x41f3b3b5b1050c16bf3d62d87d5d273b067da484679103231ed65a18da9fe48,
0x1fd958cc4fe0a290bd0fbfb8b8a513acb5898d63bc0d7e585b7d081c49eb5659,
0x175daba07c5edbf84f09c87a8c34dd73325943a48fc12cb839dca47512561d2e,
0x9cf0a4e6e31dc24dfd5a5a27a77833e477d5b2d92cff5fc5ccad9528c43ba78,
0x12d49465bd4120cbf78e5a3414d44c6530bc963bd701c54d4c6418a6cebe80b1,
0x101b2f2b675804d3b26b2bd1e07c7365af0bfc2edf010916eefb39e28215d44a,
0x114fc65faba09a59749e0b5f111930783529a0638456216232cb7e5a339736aa,
0x1dff99b52799afc802c2bbf9b67dd044d3cb51017dc4f88358ddd67366d3a9f5,
0x290f4496a52dd4dda59edccd7325038bbdc0554ad3a9a0be7931c91062a67027,
0x91e8704663c516c3b96721d2033d985089fb992dca48c8ddcb97d7d15c7e188,
0x2dce22599de04196a0169fc211d0f9c8692643aa09728eadf6d50bb534c0e323,
0x29a7ff0720e170c0e67efde72795328fecef66daada5f0e2ca858a8c6135fd48]
".
(** constants.go:406-517 *)
Definition txtC_6 : string := "[
0x1448614598e00f98e7ae7dea45fbd83bd968653ef8390cde2e86b706ad40c651,
0xab7b291388e5c9e43c0dc1f591fb83ecdb65022e1b70af43b8a7b40c1dff7c3,
0x2b7cbb217896f52c9a8c088e654af21e84cde754a3cef5b15c4d5466612d6adf,
0x2bc6b0ddbe1d701b6570428bdc1ca1bf0da59ff3bbbb95fc2bc71c0c6e67a65c,
0x123a55a31980384f3d20b2cecbc44ed60c38c11f7d20e9271efab9a905eefd3c,
0x37501cc8c9dc819309a769f4df098e588b01858bc8eb7e279e2883be9fb8c53,
0x15de231637a8ea3473c2499e1bee320c17c6a0a4f48a9b28ad1444d5351ddb36,
0x1c9b1da36989206de9173b0ddfb539bdf07f89df055efc1cc489002da3f4b534,
0x1f28ec9fdcb3854cb327e3e2fe3958550c37fd179198a41cf20a1a4c810654cb,
0x2a0418e12dd26e796c091bc1fb1e50f8290263b3c80f68036e6593c2db2f83c6,
0xdf6bc990dd688fabc1f8a5f8fa02a6a86f7a3a9ee452f5684d123eac1507890,
0x24cd99ab301ee74e2382e238be9941d9876f320e9940481647fcbfbca7eb6a8c,
0x1036eec6b3ab659a50c22ae3b357252e64641ce082e5c084bf61a4e61198ac85,
0x21ece1030bf5ad5759f35ba96af936d82a64abe4f9bb2f50c28a488209286118,
0x2e5d9059e62303d8d17fb509a60afdc4d8ee1d9137f8fff0d0c6e9135aaf66cb,
0x2591d88c11580b75c4edf44dba6ba31c696f6789e22d3fa63bbaee71c6986857,
0x1e647345c108005a7e2f870f01142223bb22ab44a03c7198852aaf6d765c3bdd,
0x107e279d710e65358ef44f966e594d2ba04e3e15e37ca5aa5117adc71b441f09,
0x173b298298adf659b3f695a02f51617ecca7e221f678375405f20405e377a44c,
0x1228a0cd105946870acc7586969e7e3b3e8d4f5f46d450b14698202adb9ea1ce,
0x778cb45d98c0ec68849bf203dc7b151840928cc9d7f40670bf7d48b3c661d68,
0x72a7ff12706fa3b3400308feb33ef3ddeaeb9a5678bd4a17dff096fa99e9e64,
0x2b0997b01165c2874503dc12fe77d6ab58a44c583b939c35d0805bb555cd09f3,
0x80805129259af50e2e5f2d8efbde358132da1c19fcb7daf48985491c9d287b5,
0x143e4e1f2af4def1b19038a0d6ac9606e33f40704799f0890b4aba0b2d6cb923,
0x1c16b447df0a3026d5b9123abaf02d69076c59153052660df237b5221485da3d,
0x2212763564a17c5b816703e5e52a7db0c5bfb668fe2e424cb251361426830b92,
0x16dd30a48d96f76e9378f65bc341781e97cfb94af5a57091bf341342c0d7a6e,
0xefae4a569514657f67e19ca11c01e2426ef0faa2bed48efe0711d338ea3b86b,
0x281dcd532dc450be559536e252e0159ee21d5b91fbf9725f4a57dd870d80e779,
0xfe4d11a8b3f24dc559b4a37118f15ab83dad5a74dfaed41637e994a81333f95,
0x1857938e02790819328278a913222344640f200c51410456089768bfcea561a5,
0x2007d043ddfc54fd999f6f4b63d4ca66c5f126951388cddb1dcde32944155675,
0x23de66b927d576792c69a2c6e7df20d3fc745614f5202780bc2b4c2fb27e9e39,
0x2bdfcbefe353fa2ffe79d2efd5a51c981345a2de40ef5c764bf90da86fedcfe3,
0x26cffc0e5984933313e4f06dead07943880da66929d3aded77e0fa7f994244fe,
0x21c532ad0d50674be3947ff2d4eb744eadbaa2812fc0fc25a41cb84c0fd3efb8,
0x246ecf2ee4531862cc5a2d7842fe3c780b868ef445f70c9a1e2bff46149cc46d,
0x397b3980a3cefa0fdc7339c4f9500b3643c54a3ee7a39600304741a2e772e90,
0x144490957677636a9a7bf12b1ac99af955ea70999b2f972211552ac7562c6aef,
0x4a96669777938cd9643ff257d5f56c5f4f1eb5adea49a678cec3ea17067f1d,
0x2423a50871429a8c48ba13e4df938e6280d715b39af43449ff06030e346e3e2b,
0x1ca50640e8f42c03c288014e8ef12b8014c3c40a62fc5856ee9b633146ec602a,
0xa8335c2fa762d09bda1eb7e22b11cc117df788c0d023d6d8947727681a7a9eb,
0x1c57af7a6796ed37bd964c33cd1bc9c89747ba21df6100209fc3df9f707f1cda,
0x8f0ad5a6c01f0bde7d1a8e7d26848179f5ee31d6d59bb8e2c701e37a4cfbb22,
0x50c7821c6e53eba185a6278fe04a5c1f2f28641bdc843c9fab2ac897e8a2466,
0xbc5d445c5df52fb9b4b9d6954bc75763d53b0c2089832ebdca9605679f68d0e,
0x10a6b2a07c472c2a32e9dc1f0501fbda5c9f05b861d1c78a5cff3594197b73d6,
0x1a24448b3442479c7ac8191bfafc67d9c75e40200b318f7c72d0c2d908b3ddb3,
0x5e230c7b91dc067802c6c9fead50897c03379389e2a7def370ef4c28e5671be,
0x1eead685d9f3577f7e364da47f74d8ee2cf6cee31660055615d8f294a30294ac,
0x4a22eaa10791b59b1bd8ad9626df74275535ebea301f8f912c521ef29c504b1,
0x6377b60615b7b9a9f0eb2276786d028cca82fbce7db1cc27f50b8486c8806da,
0xc76495da478bbdfd623fcac2f3b08d641c4c654738fad67b9e90ea0715714f,
0x250ad6b94e1bd06817cfd2421423a95e18ba872b276c199e16a8fc650c5a9d61,
0x1b2e0e66146fb5b1221c878286a0983e903e6a95390f57d298a50dce6f52ab47,
0x18ca890aaeaef97c7c17cab2c3518fccf1180b8fbd134fbcbce38f786f2c0e03,
0x1b5c3db94d9e0cd45571c1b88084186eb58930bceceb2c8f775b12f37961bea0,
0x6294c72686a69b6069349a73a81542cb16a6ad71337b7c7ff5a5dfe06a260ae,
0x2c18a25a8c2cae179b1a643e11159e8f5c9da448aaee3a44de48be3eca7bb253,
0xfc45a2b9bd6f41901baa7afad40cc28d4479c304d101067c3567fe449332eb0,
0x378bc3b5a32cf5ca088227c5b6f0a566e0b75733c704804619e6a979bc1d36f,
0x255375346beabd092bfbfd7278b437bdd3c18bd951d7f4220cdc5013611fd9f,
0x524853a2a9717af64500fec836c13807e5978be32886047bd3683a5a65b6859,
0x1b3998553154fc26ce88f0488160c244e1dec648b930c132d077cb93997af5ea,
0x12074b4d83e92f8e0ab92429aeb5270140338a97ee8e5c74f2b599d9577f25ff,
0x1a40b1e01a096ea7ebce74c027536bc58778b45dcefb7cc056256dd07326a662,
0xf5228bc094b9eec1967d778a2b7d6b4de58ede8e0f974165d37ab6f2336bee4,
0x27314b961d2f96970977a33f2fac6823c043207e4b6a48a05537ea78d779c16f,
0x2a78f5bdf98afa1da6dd45ab360b877703e1f9f0e797fecca45327ee4ab46595,
0x2cfde59ca2f01a27fce554c265bc23fda32ddd9dff3dd0a2f1dfddd0764c20b4,
0x1925a7d1cacee560010f843ef5fc9e7b0294667d871d49e3523a88fe0af56aa,
0x199ff4bbaf94ee387560fbbec395db1af9eed9f50dd60dc3ca2cb92e92452263,
0x26f7f91d959cdae91907b28fb2f149dbc275f13d55776da51a88200f8e7caf09,
0x24cddd641b7ca3bc6c4d257832a5ae5e92126c3bd2e9f05e012731114d62d0c2,
0x18547edf50bd77b2653c2a53284c999dce5dc69dd613804d10a0ee96bca55738,
0x2b27178eca4b798ba72b2e6b566bdfeccb2a1e60d8504e4c8ec9192f2baebb,
0x3020eb88ae7acfd6342709f3d3be45cf2c146bcdc906ee5795273ae4b6e7004a,
0x54b81a6d3b1f002230c4cd623f77b0fb6eeca3afefafe694544eeeec1a170f,
0x4d1e03c93510ba6fb49bd9ab51063d3b15e48e2ed449bda2765d03065f6cffc,
0x2ca6a28e6b98b8c8220abc091a2fafe86f271eef1d93864b7b2bb5a160dd8d99,
0x2a586600678651f144bf1e54de3d6f8fd519daaf4a4ad9a1f32233e89f9d6733,
0xa94a9fb854a3c53411d736ce58dc82196b2cd13144a240a6fe173508a221d91,
0x2d336c647cbb5478e3a72f20f41d135d35f96fbdd9b2b2884e6b23ec201e47fd,
0x3dbe3f89948f9f4715c491a483dfbf6f6f9dcfb5853c5d3ced707f0050a218a,
0x22466ec15338114c3b316b2d986c8c0d3d14800d82275a42f476b0ffdf9435b4,
0x1c2d6c5b182f394e8d36999e91a9eee77da71f5490961fb783a4f8e6f842e687,
0x4fc56515cf83247e370e48809d3bd245abb52638d86b48a1cb743167db2294d,
0x1aaebc90617e5aa4b4f9036fcc5092da7edce9c110e3eaf00d7fd39b17aaed27,
0x15f7dad928cb34e6858a2deb2f9d92c452a535a096c5d713f7319c0c577e413,
0x60028307221323f46eb56773c5320fdaa2d7123875b420176e34b3ee079e972,
0x157b288cec9b5356e60373bfa43e67511e2a7e62493650c8f38d819fc34e59d0,
0x88dbe88f3fe8fdcbebc34ce3f00f07fda411d780ecff1da57660aebfd12ebfc,
0x9f13c89213c82d5bfd38f8f8bcfe46fdf403d28e6d349ec0176e37df9c912fe,
0x5bffad53722ac6c42236124c3200669abffa6dc923fbe5141c8e4157cd317a3,
0x290a7829a4cef2e25d2f6f28421463344bfde52203d4cca736573537af33421e,
0x9e7209dac7151697be17d3e3ac52b0ee6467929b878d814ae4cc2734b39348f,
0x7629f5b7cd3dd536df6a866a071fb5df56352fafd0f097711cd1667ea344039,
0x11641de0af5d033b442dce1f8334eafd4959f122304ea6c2177c377d55eae045,
0x1021e806d83de4cbecb3c1650c761774e83cae4ecbbb0df13310150cbada88f4,
0x4ae37e1e7676e1d3cf64285f704135c8cd640f70c895bdedd51ded260fbb69f,
0x2a491d28b320ff77bf7221b59fcc2535c7cfc9c0f11a5fdc5e49c837a71f0239,
0x2ba7c26958118f0b751444e8ea3524d45fccefd8744618e66e55679e42be29c6,
0xc6516f4cbac8b8f29be9406c6c309df34e2da7d931133e4a34f29ec6283e9b3,
0x2991acc7db5eb3159f8766c49d692079025b480a70656435ee70c5687daaeb0c,
0x29d7605b413cddd192779b7325e1afb8e52ed3e97e92adf701c7a70c118c648d,
0x2507bd3788f57cefee754d3ff5a92980dcf062ae4a3fad93ec0059eb2fe545ec]
".
(** constants.go:518-640 *)
Definition txtC_7 : string := "[
0x2197703fceb4cbf07c6dbf46c4ad93e7d14e554db66d09102ff84824743fe4e7,
0x1322f0fffc7e4854bd8b5fc23e7106b51f59bd5061d8b565aca2fd3efe512f79,
0x19e414f80380aa2d222133118c337d82a8c5894c2f88861ee46f448fa9d61359,
0x22241199a4df9cb7d65249d9562cad6c65f16460e79a7939cbfdd6d7b9209d9a,
0x301061735384dfcecf9a311c22ade327b51c78b211615f41c77f6d85e8a41b6,
0x229e1d86c1f2810f4a2633b7b4b5bb61b7dc5d19ac95fd8d379548ff2b6850ee,
0xe31dcf9c53209a817eeb292e989727c3f56bff65883afe5fdc28ac3dfbea675,
0x68f917bb1b0805e5b5888b6a97824395baed195b5da0b71c42abd091c2ef54b,
0x1d0bfb8bb90ac234002d837715613297802a5bbcb69aa2da8cfabd832f52d7b2,
0xd67c182fbf41c18d5afcb48be20237413f02a64dbf09eaf71f23a14fb9e2103,
0x3058909cb103557706304b9bb64d94aea4e504d8fda8b82313996f7962884886,
0x4d06a80196e10e664adfefd075d0cca04961ee8a89f4fd6d601eeb9b60c8dbb,
0xab062f8d4b5ed0ec21bdb42eb3fcb0a88fa13afcae4523d2386455228407b56,
0x17380754792ad5f8195e327a5a63cd7570cd1994bd6a130e01c1fa1a173d4630,
0x2d4f3780eef4ff99ac916f4b12dd575613cb9621bc5fa0980ed9a4ec8aade56c,
0x2abbef481b368ca971e74dae04691439f845c10d1d57894269b275c196aaf9ee,
0xf24324f82d68231dd9dd6f8c05f52d8eacb9ae01ccb1f3b30228222377d0e53,
0x267617317f5146654295ef602b91250db010b45f4724ce7ec54884b29c404597,
0x157f9e2f737498821bb01ab1001d715eb2c336dbdfcb867becf0a2bb6490c06,
0xda7bec0cb98d337a52cdf0d66e8a97f24229671346848a552eac14c8a30c702,
0x15fc820ef53302dca709f3ee480ba1371c91ade79f9f587fc7878d731c0596d1,
0x845715adfca35c3e8057c0fcd4ce6a6128d0e8117d88f551d3ec6587d0f4296,
0x422f744e2b736096bc8775a3906893a64cda874aa4457d2b442a9a771956d0f,
0x15f421550bf6639d46ab5779fd26b1e11618e0497e05cc85c608b00faf3382a1,
0x4f17cad2ba0ef6f8602e93f5b988d5f357e61ae5f3ec35066fcb4d1a7b720c8,
0x1732ef5660d84ae50ca09c021eb0d77f1fb2a00cc7905b2479588c49c488673f,
0x29b12501fa79e08bc25259985f730cdce9e2434192ec826e0f4b9d568bd351b2,
0x207c8006aa78fc40a84db40ad82142d0f61b28dedf10e2201d815cf4f6274590,
0xa25704ce4cb74a94d7bdcbdb5fa268abd589d88fe45b2f2c82f90326cd049a8,
0x11211f3a71af30a00101c423ea40a9585a9eec75687725d7ee289f428f40efb2,
0xe01e8bbf5ee611471380ce8bb8c34b932ac76e96faabcb7ad20be96187c2fa7,
0x1c894a1430513df35523e22e4fe9f410a43de91dac73ae338c772fef1fb74363,
0x2bee349392dfa0b5b4a08ee58ef54f002e06ab26834f94843d48ff0ced526d5c,
0x84a60c1d70887d9f2d23a8c7713332829eb41cf3181149fb223b7abff4d7f0,
0x23a4506c90c07f3ae176a0e2bf67f57f88d45898c97bcdebc8a8263ab602c7c5,
0x1ab66896a1df95c0208b990e2c634707394a1110cb314bb82e0a2e2b4958aee7,
0x2c6b842aabeb84ede49e559d8eea658293ff4bba9325b5a1d4cb649d317f4616,
0x16321af63871328c2b88f46df432be9aa14b008b93f85cd971dd986dc16d2e35,
0x13d647208d3dbcc9df10d1ee35b598e6c8ed85608f81ba6953088e7bc6db73ec,
0x1c6aeda9e0fa69f5143e6f22e747b7e74e692b9254d55c61b890470cbd7f06b,
0x287d74a5fa03a4ed65bd4a7c6daf033418f474c7dd9b957bf2b17965cac024b1,
0x27a4327beb0b3e0cc219805b3f05e854bedcda1b7c93f11691ffd6bb76a5d0e9,
0x271a03a000bf412e7fcfe8918baa689c6682417803f5b302f1ae30695c8e6770,
0x1a4436200e4d0be65d2f0f4000157c957fee515e591c8b54bcd46c02d599235f,
0x1bce9394a5dad0a4cee35b8e99b4b3c0cee058b8ae4fde301c3145a5a7a94c76,
0x2b1b4ff2bc186b7dda9c3e05dd4932f38e6a7c04b0af0839441a5972125dc902,
0x13c87d0e4bfa493cc2a197b1c9db49426979adfee4714048d865d4f6e95f699b,
0xe861496d1b54e3530aa0dc64c6683ec0d01a4e3d1c69d50f4d6720b981ccd62,
0xdb63bd46e06bcaffbcb03e5dd3faa88f26a0aaa728198c5d09a483fc4197100,
0x2f8fca3a44bf9ea99452e1a055886af7c95850b716222ad89f0219054d45db87,
0x5b7bb3e5a4e2946395d1d6ddd541bd9c166cfa1956d161713e7e350f5947d73,
0x20e4e6c47a68be3175fcf5a7a3f8bf7b3b2198203b4552ed620b9593b66e5483,
0x154a2a02379c7695ba4783e15d10a147560ee2b4d03a04a0b901dade72df4862,
0x156f02cab5fb0e7e6fa0c743bfd64716e15e5e50e12774805b1c74dea89c5345,
0x1d258218556d0152f0a3be042b1bd146774a616ffc7e7313e9519b5041318912,
0x160a5da355d469412e5535804f99dfb8fa839d7ce2cb7afa50c1fd036219f4e8,
0x1693c0c96b95f7037faf6a18289814c68237870edc94a72c883eb2c751d5ec43,
0x2b0df0f463f69ca206ad5c4a115d1a6a83d5e0ac328bd468f35826a968d5708b,
0x19cad23c14a9bed0e159f250bec8655c07149bba04161fe002f76954ca192b60,
0x25857eae6be307b653c36a4090a3963d60842410e04c5722dfede28fa645f54e,
0x29ac9714955b7a9c94e7959efbeba17c04839ad7bbabdc643b9840ae43155f72,
0x2e637dbad876dd52a7284db266593aa85b2020bf340802625e74f45a2cdf962d,
0x468d89779fadedbdb4f0093858113c5060321aaaf082a53d44fc74c65e7ee84,
0x914cefd51a2822efcf8629d57eb5b6ec7195a90087762ec8814f14bde647522,
0x120a9d3cbca58b917f4e61117c7fe2190ba6d238ce374949778c40a6d176707d,
0x1cf1c75a1b2ca09ac655215cb308b39ecef96d746ecbc34b37583bd8e0480d5e,
0x511cadc2d431769a953d0d2355cdd3d8c13dca7a6c5b19005bcbf3c5bcf7770,
0x1e2aac063f4303e24a2a44b1bed5688a43279356dc78a772e4dcfad0562e5dd1,
0x172a396d41cfb2b1241e096aa41f3a4788303d8824d5496871e03cb9590f89ba,
0xbde068237cc41aadb7ac718d4c6b916cb7f35fb399ebb2515307e6004969e2e,
0x1522d1f8f0cb9214b3f6602d9f867bd2ae07a8fa77aefbc3153af4d350d933ee,
0x157d56053aca2c4cd30f7ba34e5d41b8a636961ef78c1dea1759dceaccd1ed69,
0x10aff8c0fa2f25f58a299e22c732f1b901616f6e4bc6f63af79bb93d45fc188e,
0xa9557d37fbb35ce046f2df3d8bd9cfccedf85eef2549843da7f2c2e36d2bde4,
0x75029d8351a4949170136de66c179a8d6ee6b56b89598af199528d78e8d2c59,
0x2aa767c911398696b2302fe15ad33ef35c6c97618e672f837aa4fd42930355cf,
0x14d99c7417a329ff62d32828421e1b8a031d30242b285c86a4f63795e376623,
0x186e1b78089467478310c35eca9d2058c0a8bb8e2ea5c324f1314e478a12894e,
0x2ca9306ef62dfb1ad58244ac5bd70b0bc84f86368f6c9bd4e15ddaed432e9838,
0x17630d6307628585661eaaee9438c67160f7eaf6d03d3ca6364d4adda49bdf27,
0x21187c1dffae74340a488cdf08ce322226544816780af016098d8c39c7e72e31,
0x1db210b93c320a18bab1769aee63276bd99ac89035b0da327cd06cb70854aca,
0x18bb6f89805c1bd59d8d7ad109d5f26b4d18813f71cf3aaba26ee896709404e1,
0x9c0a6c2d79cc06023f3f43196c9b8a60a55716d2c7ca095d849a5d67ff6fe98,
0xbe6b7d6cfed9528f4d1ae306f3138306ea7c81cbf903e9b884eab5084dc4c16,
0x16fc7c808552b1362d8a739bfdf6c6dbe70b00611780fb4818d424d5e017ed5c,
0xf31a91e6db75df904be6bb14fe7271429e5787f9a918d1cb128ad76ac948836,
0x230a66ce24feddd45fcfcb5ca7e4efb12461a7c0a0b673a73b252925d310d488,
0x5ed3707e7ad3478ae508126cba274743cfe8685b46153f6da3a0b4b83ea92d0,
0x465c370db40b8f14b4f6ef913550c11bcb2839ac707e2fe9a9c31b43cf8d938,
0x85f42b894873a7451a60fec0539f9ff8b2e0a495e43db7b95c3a75c57c20ed,
0x2e8b3ae9368c9c1f1542ae734cd995869f81aac64902fb1d3597022da08f9938,
0x161485d4fa8620e6fd09b088159c4e223155019bfe9eae28f9870ff19ccff314,
0xb6e400339e5e76c1d200fd27884599d473dd98fade9e648940833ea32b75416,
0x261ee31fad47c0db7bc046f718437ee518fe73ec92c1e203155d8f284d44b310,
0x4e106089b776d01a284b84adcddba4bf0ee56c2c85ac584b4d938f45023252e,
0x4b14e89f42287dee36142a17718f7615789c9f9623b534afeffcf9c7e26449f,
0x1d55915b20b60534f1d89f2f8c49568123fcb4c6d9197373e54662e7d9eb83b0,
0xbf04f5b7d178a77ee32fe543be468e1c89aa457a2f4d6699aea743f80494b8,
0x1bb1f31e887647cb45b8bc5be185e206e91accf86e5ce5bc1b39af12f857ea3e,
0x26f0b4214212ea8030aba75b2eb699e84adf24bc4b856a3522b82c1edca87e9d,
0x1ad7e1c6feade269c076b67239b316e7cfc194b036b5a53f9207f457599c5fca,
0x11947cedad859f02ffb4b99e8108512fa325224ad7e1bcf82b28c61a89840035,
0x1ef4f0330d6144228ef6cc36eda0d179384c4dc1858c95de12d070d11c43348c,
0x1031abebb0216be506c04a6514d471f18b0dc1b5a9b616c87a465b689cd1336d,
0x23f97eb680f5a13b3e8daae572abe2ac0dd92eaab473002f0708e6b6084b2df8,
0x289b2ba2e3c8f665b94a4d73b5bdf7d6687468aaa84ef7f6e04fe123659e41b2,
0xd40f713b31b2d041d3e01e2504af10020bfc45bd5bbde4f4b133f63536090b5,
0x29204d73ce84b3fbbe047c74997ee799f92923cd16ece1eb6275c8b71659f149,
0x23cd14b50f4129fa56263fefbe7475e51c85f67cdf38a9ae7637ad04ad644c6a,
0x1603887bc7e6956ae4ff5b9f4423b2293ab52b69b2ec021acb90bb6da8dc3883,
0x2137d99c24145e52ead0129bb220690c5ff8f6dbff755c8467054b645c74b0f9,
0x1f3d6d1349096a8e0594443a487386f9f51b2fc366e910a9952d4f0b3dbec414,
0x2148e1aab3e9c82a297d04af8191e2b05cec71b0cd6b8b4e079061dd00f01a00,
0x17fb0721b3375406028ab6f04882a202e6801cbbbb50badcbd5d760d59e60c54,
0x44f8ade334554cd610743aababa1196e00106e754cff8b088ac69a273ed074d,
0x2e10e74d30679661fc3ac960b7c967cbc50029d2ea463ab8ef55633cc5405243,
0x1e44030832526ce32d540c5cdd2def7f900509bc8019fec5e38848b3576dba8e,
0x2c17bd7af463d52d3fd7e8723d11078369561ca3c4ece48f1298adabe7c822e0]
".
(** constants.go:641-772 *)
Definition txtC_8 : string := "[
0x123992df3b9daa65139ec13fbb52f7d348e134333684c1596feb0e8d8c3ad596,
0x2fa46f5dba9909ce9984a01e2af30b550dfec978be92b49119a3959c7f623703,
0x21d8f94d3bd98f0b63a7aacb175b2cca13b2dd8a8cf68fc36d94ae29401b2d2c,
0x1a8c06c61046e0f8dc6a39bc57aea0d07fd7db34e68f73579da89e116af87eb8,
0x298cd7046f58c0cab77523a58a6fdfd1401b89e7ae5eef4994442d167f7ad1d3,
0xeac737966715df4a20b31ab693eda86a07f3e830fca475a6574d67fc5f19f63,
0x6b9b718bb3b6d45e0cbe6d5d9a2f096a77beb056821750d072262af2a70a33e,
0xbccdad6e8b1fdfba846a9553fc7905b3f96e435d653eec3972565e1fbbc302a,
0x21c2dfe20dc5a72167bbabdd95a18c147f8483cb7c0e2e684a1ee4012f4bd92e,
0x24ad6b2755a6a6ee51d92fa30df2489320e50a8ce7132504ceca30e9480079b0,
0x67a46fc4c52c6ea102cd37b4478fdbdb5e749877ec437bcb7acbfb64e61ecca,
0x1a2623975652d476f4b9cadc4b85219268910c7c3b2d0ae12fd47eb162257f35,
0x25f8ce30441ce86e6b21d52ca87463cec299a3ef543220d72bc2491fdc04c4b,
0x1acdf0b48d8a4789a9b3ac5ff8962b16e9a56c880e223668a25018657834aa5d,
0x14d3fa7ee1cd2b8be2f42eb6f4b95bb8b1d156d77f143fae3e82bb8c5610ea77,
0x3a224f6470a64f294fa4dd67524de58b18f70812e093c0e1c06b31d758a113f,
0x2c822aea71402807ec21db11a089668fce2e6c2d23174de3eb69484a53148527,
0x1305b66e890e97e11d52771a60509026baedd0e0bd5e797134259c748a289995,
0x2b1e80bc5e3f546f4b11399e77a0784eb7c439c546e9fba26eb6c77d89c14517,
0x1562326a8b0d5436bd7bd173d3f9e69c3be74dc79270b4fb1e8539d584eac1d1,
0x8c9aca89b447e7468bf1ea6db080346b6a6827eff1fb81392cde7f6130910b4,
0x138e002e8c0c597550b72acbfc9c50952175ba85c061b7e973d87d979476b54b,
0x317ee43e6f4e38796821ad2d55844d012bfc5c2b990fa48b491ef7c6372bdc3,
0x1b60831fc11521d122d9cdc6ff45c7005e6a166717e7aa1685cb286c9ecc992b,
0x2e73d35eba9b43a5100de17bba5c59d871ffa2a9b522b0645e283a89259d446f,
0x22a4d3cb7750e5f4d2f0381294578f698be7d678311595793ff6f1ee3eff2df4,
0x2471b7a969af295b9d407634a486a1c82cc273506d89a9cd5c80a53b40e1935f,
0x197b73e1d792a106452ac3d31fd02b5e1617f5442fe26bef5fffdb7e1497754,
0xb2df733b3541c788362a5debf818a087bd9c9a9d39c1fcf2564ad3980bae8f8,
0x1cc66ea285b3c09cb4653283b9c6ee66b7e7a3cae20cd50315dafe3a92113a2c,
0x25b6152ba9ebe836c2f5679d0f891b30b96ae3e06a6132da2f6f6d212fc4b52,
0x1a889aa16461370a4e75ea6bf7ff9405c29656295996b0b5884216311ecfd7a2,
0x1f6faf41cf708d8307442a5194c1d38dc3e833ccc4ecdfdb8aa44c5e9fce566e,
0x170221e35fe04da2303dea141113f7711c651dca57beb7fa3624d2881085d7d3,
0x1f4fd254340f9509fc1ce072bf795c9abcfedd5f80ad8ebea2726be474197b1b,
0x2bb4fa69cd631d5b418837b9155db02d5489e7feb92b2eb5a17bee8031058780,
0x2fc737a4c1073c018432cd0f9e8bc5b75c19f94f554314251d510fc788b79d5f,
0x299d38d16803616a9065d1820e2b8608280e8157f7e9ef5b954eb3d2beb2646e,
0x6e8fa64f6f9e2a66650e0f002b2afa7e0c2c9ae417072c68b8f1f31b217bd67,
0x151e2effa0eef7ae28945060179f4aafda3a50635be3b3cfd4252b5ec9c29449,
0x13f225ff220789cf3d9547f15ff5f6bd6b057570636e25cbffae7b707d6b3a6b,
0x75f0d5b2f3aef1e72cbe0d0b406505ec9a0c2b61f37ac0fac82b44d9fdd5f79,
0x26f491b65ef18ffd2382c44ed506a506a375a9049e2f6fa392a837f3004c50d,
0x26916c460b0e2d5697914d1652fbc3da25179b010a1158e546de85020742ae2,
0x178e270b0c35c5ade3457fa5985c1295f64d458a2a25fe849c7eb5b4bfc81348,
0x12b5fb7e1894d846ff3999b3f9105329a9cc459d5b605ed00f333da7b2130905,
0x138f42f4f01f4b059cd6cbd6afa1aad443f29893e24313d2fd3b0e61a378cfa2,
0xaf68a2bb5f9b6fb492356bf6a80f40730056bf1d85424614ae9703ebd20ae87,
0x711a1f848efb7d202068d15ad1825720c2b82bb2114bc884043bc38d727f6b3,
0xf7275b3afe158fde58367a5036fd26eadb8cd1c646afb4dea64fbf1d80e1f50,
0x455acba2c77be3a518fc64f7977ee3c646b30b534294726ec896976d6a16529,
0xbd261d1d46c99febb2cb1bd70ac8fbe0129528be059fce75cdba328f73d7348,
0x2e5aeeb04dfbbf5fc35ddb3712549be8e643ea1429fa000872af2ed500152719,
0x1c86ae64c468a452e8c1c2d5208ba6e17378cc3237380a48279889bceaacccbd,
0x2acc9d15663027fc5b4fa467e70c3b476f2a07a6ea585caf7287921100567a40,
0x230d03be86fe9114145312605773dcafdf71b97d8e2cf9e9ef246106b5fb1459,
0x2ab60a4154e2261c6e4e82b20be3e08f7613cd334dbae29586e48c1df49ad592,
0x2328aa6369f0af736abace3f7885d7dc566c39ef831508178e6d62bd4380cfc1,
0x1164b8dce7e4179ec0e294da56e5ab43de2c20a75d57b8e583ffea2349e62539,
0x2491cd6f23416063e77171095c0db217248a2c00adc3e146ba32d9ac2b941742,
0x1cdc848d353fc772de151f8656a7e2e24b7fda385568d6596fe81a303ea208f4,
0x2a398eb8ec4d3bd99bdc3520db7341946d4eed3a16f6faedf167905e6552884,
0xb07f73cc8432e1f9e4095e392359fd46467f9bff3e24af5bc4cbe9b17b43e62,
0x4e964ad5ded274940fe678e4f72079ebb09f289b8381bfa71d7c8ef0605954b,
0xdb2a3aab326c1344771f4c5f872a050465f87469ca27704fd93ef3fe5a5a1d6,
0x27b044fefd92da8972a60b0297f9b93f291786a749fef1e29f8ccf6bfde72564,
0xc6c0bf5ece0bb9be0737e0c94f9b10594489ee5c00676e51f31781155ee8729,
0xa36c8af931781acb11cc6922f0bf6e28ce01a1a18ee990da3421a0a9aea0147,
0x255f76204e6137ac12ae576fdc49baa054ba182678d75a0a3cebd01d0cd6c286,
0xaa31a68117f221fbe1b609d8e269e9ba1e9ac228e2e0a512ab9c774a3a63f79,
0x14151310e656644c86a5cda7620c6440ad2bb09688c70530c1ebac60d96d56b5,
0x27b953b1de0e30a1a423405b749d830285bfea294cfa1d3e11b4cc5801aaa640,
0x30476b760f0b45ab4e5b7bebef2cceafb2b06f3b4193fb9938c946c63115b008,
0xb70ffa00f97a377990544d9501602376ef9a496ab8dfc44856306bf28a1b920,
0x2861adb9067f446db45b36bf93ab6345f53e07746c063546df691604ec026529,
0x33e9b4274c357a8c6dd61a3e30236735b5a23f396acb52d92d6685a5f03ef67,
0x28b4e505d5309e29a6da8f94fdec039ac44b43110bc0f8bcde42bd833dfb0d31,
0xf6fae1122b219ee0b1675ee8bb5c7c48744954e3dae2f9d5d1ea71c0edb0a9c,
0x2b4173bbd542f1b89fe8d3478a050e81d42fa495e9c96af263aaea3c498e917,
0x8d72f5f016ab29391344f20b821450da912ff016e4da674ff97c5d92bd3a1a1,
0x1d9e387998377d9e680b0b55e8309fb8a29719551de783c1cf817cff9ad6a90b,
0x1424e2acf5db0d91956e15d5b5dc4132ad6c4fb863c9c8e572bb49feeebf7e22,
0xb3db34e4253558779669b849ef2fab55ffc654d4f9f770f74cbc45ba117f483,
0x1269861c49d7f3713673f6fec4b57436c9059aa10b541d64aebdbc11e6513f6a,
0x2557b7a318681664ac27c48349b1b5f44892e5ad02c8b81493418bdc66517342,
0x650dcd4d3610b1d776d673024e679b6c76b5cde0b985091ba00e1cf4eb26062,
0xeae77312a73dc3ecb243143ba64f7cfdc9465cf00fb0872958286430fd41aa,
0xf43d99f10bb7c8d851384f5215bcdbc90489bd63c9b4fa3ec48bf1851012d93,
0x2d95bd041d1b5522fed823a5d9d607d7afd455461f33bc8c1404ef348221abb8,
0x2fd83f519597b7e807ab80fd8701dca3f4085957b8f2955f5df79c24f00a1f53,
0x25c0c9abd576c803e422eecd77a3ca4f63a32b9f90f5366ed37658eea86f271d,
0x31509bde9a7286eed15ea23537ac72dfcc35a9f4c8cdc92baf39dd7cca4939b,
0x2f6692e9fbfa0ad64b3f748425ce43c3c69cb5e4c13a0ff06c14f2bb75141af0,
0x1aa375c879966cbd87d4ce7089e354786c6f2a58e26b97c760dfafb72df9c5eb,
0x2f14baf1792365a476c4c193939244a6a4edf35f41616bb6db4b2bf511642a23,
0xc1552511a3185d9730d9ad3a86c6dce629f5871d7e9ca38399758b587830ece,
0xa499163b884b67402058e13910d1c89873c952ea1a7d1a3eefeaa22d2a37d7f,
0x2cfdadc4634dc875e4c2be0f579768c85b32e5a19baf3b5d536a3d10a3199bfe,
0x2ba9818b35db18cb7631164687c593c9badacb53bf720607b46212330be420ca,
0xe37b0ae73060dc2b5f671e27e14a7cdbf6f37b7a03e69654bee75a9fbd52c6a,
0xfdce2fc3a75a381f6dd84b4ca5f9753a5f0f8bebf5cb6e606c59717aa7b814,
0xfb5a2ddc03041dffb808a10877d437c2764240964c2edfdbe545854aae282af,
0x1ea4030900b9f74c33a53a950d21f40738813f69e8baf44444d6f0a1368c6d85,
0x2b26ae52bbf7d41a66d984ee37a40c95129c4949cc74ede40fd7df3f3bfc7714,
0x16062ea8f9c3d1bc9acece3e3afad961eaf765069773e679240dd723dd4530fa,
0x78830573fab36a4777b4d82c044a60d06fc2abcaac1826fffd2ce0630d00eb0,
0x2f17fdbeedaae54d1409c5cee2a3f3ded005fb6f84db8eb600111679e471be8,
0x1a01b0c5b209af90e35799cf630441b0fe38394300a1dbdadf7e80230425ce03,
0xfa20a26a6950d031e20c9fe19f1317c0e694eb4397a25fdf97946bfd66e5198,
0x1b63869e274926ea2e91c0fa091b7074d5fcfd9987e887614da86eebd6b42c1d,
0x728043328557038e7370dd984a822050199193a7da9c0a670af7af9094382d0,
0x9570a7f7a06102b55bcfcdff64c42cf2ae994a20254054abecf6609318b3707,
0x1c2ff23fd6d0090161db54a99810f76ec767e2db6e830afc9aabde9614829e6,
0x7faf7d80752f501cf0eccc6bda01cd349376330df799ca842ed4f452517f6fd,
0x2a25dc90d45e36b9367d207e45be38d449034231ed7c6422d2795baed9e08d3f,
0x5d6d08e40d2741bc318cfdd961e62bd5b1439145206f49aeb0e8bb68a244851,
0x9d7b3f8a46f030b3b0b27bdc77d990cc642e4f3dd667b085ef114d08bbda9f0,
0x2d17960ecd06706c37ddcdad5e4707ddc0385d883f08fe7c8b36659d94ef85b1,
0x15f2471564848a163204b074c1dba4c518b1e9a4052a3a7e5d9c2a0e77e8ea99,
0xbc29d644405d0cf3ef18b311474b8f6d0e5bb9856059ea6b908d8eabbbe4a3f,
0x1f3cc2b9a666ca5dab8bc17436762dece0ea6ef3becf39214992627d49595ee2,
0xc5c7ec0b72c7947f7e1129191a11ea5c2d21a431561b3ee1513d0fe07b6b5d1,
0x1b02b02f8547bf62c0250622fdbf6c094909fc25151c3941b5c8c2e06d675be2,
0xd3213b732109beeaf102b359db224d86031ea2bbe1406f70b654eba980ab84c,
0x15848ecf21e60c3ec1ef45998777202b708426a72b03f8dc4e5696dc74eefc8c,
0x14dbf6efa7caed2cf9ec698db97e7552c62b386a3483ac39028be9fb5d6e3b0c,
0x2616126b746c3d8a4dcdcbee6d4bb8c5ab7a3ac8c5c5b91a654747119bc70ae4,
0x191fe12396efc23ef8865e32908d76c09ab0fe52a4665554020b7ba659386297]
".
(** constants.go:773-911 *)
Definition txtC_9 : string := "[
0x2088ce9534577bf38be7bc457f2756d558d66e0c07b9cc001a580bd42cda0e77,
0x1b86e63908c4b12af43cec6810356c94d21c9e37d73dfff9742a58e0ec356be1,
0x9ca022ba1142d170f755212e2edc9d0a4ace33e16825f540d5d50d5a021a169,
0x277e69d47a133804241f6aebe9449be6e22c849c6d8ad8c938eaf613bc1aecd4,
0x17b57ea03754e24ae0ef425aa2ad931aac9ba5457a18cec594545a235db6b269,
0x11c740983395e0f4a026e2c7c939236375c9077755eb1a37a77d5a1fd74abac6,
0x1cd85529010dd7e2fb7ea403515bab5727556a479c59b822efc5a81eb37bc5bd,
0x2cb9354002cec4bcbfa985de34f43d702ced83d197aa374b5a1f96f87b12f292,
0x1f7af98e08f6877923f27a3dad40c525ac52f56fbbd878506544f9acd61aa32d,
0x1a0b807de55ef1263cb74d73f1c8bf3403bb3f1e03cc502a9e2b8d423688ec18,
0x1fd59a493af01f538eaee9b1cbcb2cd1b799d6093f0159107344047c2158d90d,
0x1d3fa4c04d54e5263e743a2fa010370098773853777b73c7c92af64eea079612,
0x1dc892a8d006e9b99d597f449d0553ebb51b259319ab9d8b2d02ed9c6582c232,
0x2a0537379dcab76d9308d2699e0e900109318a740c75b8ee1ba71120edbfe071,
0x149d2cc892e7cbc1f4102493bb96b4a36928dcf62f7dba6d9e0d446f5ffd4fa1,
0x1e49f2771b7510aea77ee000e757ac105699c62a33a418ebda572969037b5bc8,
0x5649ffbf48a15d39385cb62912bf049e9706155ff3dd43f7ce0e4cb35c86c3d,
0x2698b359bbb3686b626831d596fc5b5039f4af516bc683a289876271ed62897b,
0xcd8c08efc5d2bc627ee727dac325af99b4f72ac70f61c890b0593eb03c8cd2,
0x36a9a9ad327aa70232cfe6c78884ec23aea703814c701a1862789367b45b3f5,
0x2b5899d038a234824746d697d38ff423459f7bd4015782f528a3705a6f2feb9f,
0x2524bd7a1969744168f11aa03fa82da034edcd1c31141420b2309344d2741aef,
0x89189570593679da35b668bd5b3542489bab1022dd790ca6a99c09ed0a79aca,
0x6608970a49c0ea65f21a544c215ebd89b4023c387e8339ec7c9cb80b6b87ae4,
0x283a6336d81e02e8dcfbd4be67fcd7f8b73cff4ce3f8a7f3451b26e81679309d,
0x14536ea1bd43af4d7927054ecdc962563f6f396e372f35cae0e5218d62bff454,
0x3036ae3f4cef8a4a0a324f409f290c172e5ec23a34f75d57233a04a055648e00,
0x22262d9a1cb0b5941b3f193c381403425b83e6fd9e1b4d930183148e414db99d,
0x1555e4726cf5d78d11b66f4969724e64be8dc3047d0953aa84be42c4a3ab4098,
0x2a3e9e52ac1fa4915e262406c27cecf24b0411fa674ea5046ac44897629e8544,
0x14d8abc9700624bfc54939ff64f75e0ad187662ddd0215e3cfff56a350371231,
0x1e0eb685b561bdcc6cb793504a4c1b5056af33ddf6f5e93c72396f6e53eeaaa5,
0x2e7e146d9111c11d9348ec2230270bf211b4325c2e878d09faedef98bcd10dbd,
0x18c036ef9e573369755af33142bb856437f6498fb1162b8f8af4523c390b09b2,
0x195ce383cf5b4e65acdb300d6e359320ea6bac8fa881456c72526b4513ee1d71,
0xc12860b292d22e5520d416427e1ff80eeeeee47799b322e0580c2d45d60e6ac,
0x2ff73b859f68c9b8eaa94078545f54dd1e9dfd74fdd762dd65f522af19ec3ffe,
0x1205dc46155d9cc22a89e838ff1a462738d3ef1972a01864c72af0f342e524ff,
0xfecb680ff19b124ce745b6f70fba1b91716e12f664fe93562d93700adf0bc45,
0x234391b786f9498db2680c6e7aabf4b0ace0f0368e21eff94528d051128cbc6a,
0x2937dad89e2bf12f95cce70dbe3ba4c2ee0184226387421bd18038894ceaedc9,
0x22c7ab9a912c2aa92e2afd4749e70968322f7e5750ce6c697dcb34446102b85a,
0x1bdd8241cc91cf091780328ea6a0ca6dae8c10c50796006d462455b90e7f600e,
0x49e3eb4d3bdb8ea3fb6ec3dc065556eace18a719864184b36da835bf3e8de11,
0x20a8611ee3a91a1513e11ae962ec82884ba24f32171939892a34ec6d4622a88b,
0x27d281f482154b5c001ca383a1087bb1481782f2bb457fb32505ff63315ec376,
0x530c5ee45b6b16abc8306ebbf102a1c0774f8618699278d5d3a99f42495a3f0,
0x256f402ec1732288a2ae27f56a2fee2199bde67ca2917984e2a6c7f3952a8e32,
0xed544bd301d33d4b9ef359de3bf01e61397f2f29911944c5d091ddbc518e146,
0x1370ffbb023d66ee62ec3895f61de73212207ab83194bf6cb1d49d37bdd4f34d,
0x2a46d5538a5a9bdaf47e44594f3092112e755cdde1a6c128568994a040e9a04e,
0x1f3396d7db31c19111069135ef2d095c1aafbe2c76d7cc387944b2f137edba64,
0x225f3203fed96b846724c146b3d3b351d6615ee5cb1df8390a02a715ee206f18,
0xb405da3510e7abe759298137d4853f651e35b7660028d9ce680ef29db4c22b,
0x162df9d9cf874a89630d906160abd114b09274c010636c440c3773b5f012374c,
0x26349d07dbfe862f47393d354491dffd8ed56bcc1424d45dc3292669be8ce0d3,
0x1a75a0ebd02bd60bf851e0cc564a07ca5145d4ecb970625acc7f225480e29903,
0x22dc35316d34324dc4fc4812b24468a33b94bd1187fde4092670d789f8372ba0,
0x1f260c2068ddd344bf8fd0d985ad999e0a2a0b345b5d4e15647c60a0019ddeb9,
0x43098906f60ba8b964c3d33854bea3bfc728ebd374b871eb716e1bee8f6fa81,
0x17fc06025f7d0132912f6cd189b75845e8a8ebe264a3561610ec2db4cb22f800,
0x1853501b6a22237cf790f64d592e46b76bd78d7a6e11a86a5e964bfdf98b35f8,
0x13f85a860c328d7fe96970fbb13dac19233067b186ddca81f7b805dc7e8d4de0,
0x2553858a2dfdee2556d24923c609eb3bd92e58f1cab1c406317019df0bddfbc7,
0x18db95df1ef5cac1f4d5e21dd81e4e7d4fbf98deef329bac3e4744b2f72cc2d,
0x218cfa400a003da69ff396f9a2fb282d544a43697b68fc6baccccd9cf9933939,
0x15b192afdaf7ccc461209127b95647cd661c37044642f0207cc9cc699ee8a3fa,
0xfa2a193cc8addadf7766d712c7af10074bc8149460ee35b5c78d15cf527034e,
0x6f3dd41dd4a94658628fa7cfc17eb024a59ceacd9ef0fc0617f275cd9dc0fc5,
0x7a9cbf46611387ced1b18c4f371d582cd7b05a50caf7e230a3b5fc9e028bae2,
0x135f98871577c5e638e56325377721fbcbd590d85e93ed310fc1c0c802dd06a0,
0xe8f8ada4fffe0a6b9faff17f6a926f28ffc38d958ddf259ddf4090083bd66e,
0x225df6aa9bc49e9b2f5c8dc81e15c91ec1064db201be633f1e5fce6bc5b9b6a0,
0x171c3bf7f45ba571930991e63dc8f4d823ea1d885357a37f7825274e9b9e0d40,
0x171207761f4d71c5d5fa62352b306da902f0259f4c0470bc82409144feb9acf3,
0x26a8805900a6087f4d916c5f8b752ab3211023d730a1c5f745d9122fd9c19973,
0x129433d6ab5a8f5443489c357b69bc0c27cac6ae3c24997e5728ffc76439d5b9,
0x1c0c02bd9a4f7a36fc2ad938f9a742c0af5d7745f1f0ac5b664aa3e4057a6f18,
0x165ff7309c19adfcc8ee6ddf752f94fa5c24bd0e3ebdbac72c1fb06aef56dfb0,
0x26b387d2dcda5acfe48872f1c9077083043981a4d22ec361830489ccb49d384c,
0x136f73b20066bf9bb629e14dc8524e6026c159059fdbf51160066ef7c416be4c,
0x2ab4b86e7cde3982d2e88235c312d1413d85e69d3f5d51bff97f8521bd7c35b0,
0x15ab3bf7cdd8944501d4f6e1fbf9bcc650c5b7a96860f75ce08f5299a560e3ca,
0x63757b1ee01190b18aaa9078ce6c59b4ff979a43897f7ac41f667ac1300c522,
0x7235d5c897327b9b2dea43a9c924d63adf0962c8024e9486b31c7f7dc93f93d,
0xc793e095f24f97300294b90f9c734241509ae31ac0e13f9f1df46e0fe537f8c,
0x16c461135e143c6fb08d9c33fe385b0c7a012bc208fa6671e4619534b3e73139,
0x3695a3fcb6f3778dd4884dad62e4e86c750e28d14fb31cd59567e3aefd0fb71,
0x17501f012f54c4f196aa31cbd91bb126c254f553e55d4ab844f4d4c689d1a1fb,
0x20ff8c2701723ebe114d932d485fb4af9af641e52cab0d5390db4dc624295cd8,
0x605d48243e21cfef1ed9130f5844a0c14c790624b93ec98930d250c1b410bbf,
0xffa032ab9b633d34909bb748a498d1d76f82057973eccae9fcfac45f50ea6e6,
0x202d96f16f6276129f835fccc83f52e4cc1a7d5f2ac32ae4363e9421f6704beb,
0x97e3fd4d35bd1394cd482c2fe4bc3c02881e452adbf58858a24106a1cbf0ad6,
0x277c2847ae8ca64446c9d04e2be45b786a4ffdc7dd1d27d6bc978db85ac85ac8,
0x3410aa7a2038d75d33082a5fd6bd77d018578ad7fba9f7712e4f41e7d397e6f,
0xff02f1d79d410c828dd44c6338c31048ced79c8aadbc45afe4559dabec02981,
0x49e781f466e2561b92d45a40fb76025afb1732b39a48dbae1c5542272b1e126,
0xa88c49a585914a1ad99805da9dec850fffb2bbda64f7b509516a6713b884286,
0x45e7bc4beec7107b2edf2649f982863c6e106589588189eb0c9de4b0e039017,
0x828aea263b9f5db239f9c49e36a2e8cdc8e348f58904138e089cfcb8470ae5b,
0x253955f1058a3387b40981cdfb33b74623817a3894b51087d3f9a4b39d716a10,
0x177c69bc3df7a463c4d26b065562461ef1caff9c92d3bb143ce2b29be13b2336,
0x14d6068c39b97b9a103cb0d40e9a8bf3ef7a6c7bd1d622d7da57b7a22cb1dfab,
0x25dd2b57b4799f6110366e0baea665aa42325019581b8901fcaf78864b51f107,
0x305ec758fa6ebbe5ce50bb2f16ec00d0430133a0dfd4cd79c12d69f8cc0e8ec3,
0x11ac0a8009ce27d3e2183e31dd0175f81284b37c9f6e714e82de746969c98865,
0x1d109b8b68f442a09a062c5a663a0935a96a91219587efcf3e95f0aa293578e5,
0xc7b0a104e403dadc80eef55d68fd56d56aeffc40bedad4f44b2ebe780d08ae1,
0x1807654841ffb72e7b046942c0080d97f43191c6d2e78b70e69ff867015cfa78,
0x1b63da1a99ed90f40b0292180dba78b6e09454b75bde64ac9e5ccaf2b2b64043,
0xd7e5c4d321bc6d180104e6a134450b8a62034e98d72c9318c61176453c96d4,
0x2e252a397bdf1b53547239e3c6e9bb5260c1905930644e22985f41eb6a226f4d,
0xbe3e9b1a8abdb889375ae6082e14e37bdd21b8e2a675ea56626e9f4b9d57c81,
0x161b52904a998f03ea62ae67b561f1d74804ce154f928c1e086731d68efb5213,
0x852f56672fc06cbe726036617efd210b8025c85b96766e95925e17f08564aff,
0x21c4e873d8d03af989f22dbe4fa0a6af2a8719d289707ae506b39518349b6cbf,
0x1ac41a44314ee18b9f9d4fdca582a052c9b69c09309ae447404b3ba58104581e,
0xee333ba934442e498cede6609a1828ffce94cf07fa7b14c1c991889ad1448d9,
0x2996c68d007ea8d16c014fdb33190fa58ee5de793f07fe4413ee3a4fca43466f,
0x23f678b22fec25ba357cc068eb259f114754a65477022abe24cd07507825fc17,
0x1f6c82714288549da4646534547189349ec908aa2fa02729e979df6a5882855b,
0x1f818e74b9c3a490b612926bfe89e7947168d343c78084a3bedf771216014354,
0x206833435ec4988772ee1f0ebb9313319cb243705c1313de603fdf61a323ef04,
0x171785b03104df15a632aaf4dc7cb7acf47934c72c96310f1342500805120d11,
0x20b7363891cd3589efe83abb91d9f2e6c59b575b8d3ada6c6cc84faf06763db0,
0x2d60609bc685d0925cdec6f78d731df0a040638a754da555b8bfe26536a325d,
0x1a91979ab3ad3401872d210b3b41347d44312e5d58df0c1217881d544ba301ab,
0x166546d364e42050f2c39d196dd4189ae824a570d39c02ae6a85d82b00419bfc,
0x1ac2089f74aa7d61b7c44c57ebbb6751be4c8a22b2f82f13b513959bc2f200c9,
0x908ca864a04bcf677dba3cd272c6a1770e7a9c6381eedbf9f0491b02800ff0e,
0x24bc8a866d9b7bed9242ed6a482252db77e9d83ace606293193994aaa126e72f,
0x17a33b4d4a0821176c406b479e38da80d26522fec0931f218c8e54e269b0ffac,
0x12d6d179f18bf6c6c13661026c0fdcfee596af082545f3299e05a8a78bff2e28,
0x15c7fb9fcf8f1a92cf0c677fe58b79065a5a502d778ac6967c022f6f31132405]
".
(** constants.go:912-1055 *)
Definition txtC_10 : string := "[
0xe1962c232fd0a6bb54ad8962a82b9838cfef19d290a55fc49d6debd061cd2f6,
0x1e1f45cff3e74168accd0a94536fca6317128953eb47d8d2d79b847b355cf51,
0x1367eec3b20cb74953618fd9261047755ef7f8aae5ffe96fc8f7d9a02e37bd1a,
0x2ff6ad40533afa2acb78c9b91650d7ccbd274b09f78c100479f3a4d72956d706,
0x152c8c3d9e43d90ad8094831a74af8151fdcda0b18d7bd8374ffda68d1a5fc71,
0x241707db26f96df502364d26712c7f465d0ac5597a309559b075406351a20977,
0x15a4e4728a197dae6303d0cdd2b6d1e4114a9fad38a530bca6fd06ca1ffc1f56,
0xcbfd63f363978c387d656e93f11e336987a68748c8f54f385887e64b1075598,
0x1fb594474b8334f9aea6fe5e323fb0e0ac27d2895921ac64e93e524e4ffd25c4,
0x5ac55361da931c1b4c560aa8dbabc8624ba225871bce224addb5af901676aeb,
0xe7266f909395b5d42ec298ad3eb73f6c11149f491164f997ea76b64282b9af5,
0x1d928ce916ec0178a2c0d8a890af90468c8af68c4c128c68f042cad51c6d7895,
0x11521e378f229844263410fe44628fca9ffad17eae9965dee900ef14a4d2d6d2,
0x23f3ea3b55ad3710a0052d7a4b9c9a65456ef71bc4eb16c1e908034b3cd3b2d0,
0xd4f972e795bbca8623bb08503764a90e4384be644f57b4a56f1e7e1548922bf,
0x2a53e60ecb9c00dd99692d57d7a54d893934468203995267e83954859d21b595,
0x18583bb0a83ad2e710369475bd54ae1d821d75a9e1e870df11c154f41be1a632,
0xd45688dc986f78e71c463b76ed2c056881c76dc552ccf8d3a1d795d7682efb2,
0x1448256830ab79d2618c6ebc5af5624fd064e2a16194e5a0c35c76fcb094d371,
0xc0c7912bf67c273baae265c68f378a3fc06eed7778ba6ad3181428bd55a148a,
0x900cfc715edb109d3e6c02b7a578326f57efeb3da6f58e64792dca3452a55f9,
0xb84b851d9d0d621eb2872fd75b848ad6a905911a988b46a3d0d70d264c8790a,
0x69b8105bc60bee13097c0fb14d05a1b932d37db703f6ff557675bfbbda8a5b0,
0xa0ad082a6226840334524022e1d3c7168423449df9c2ffcb44cd9d4d2302325,
0x18c350500a7bb9fecc04b286ee0ebe76cf71281b4463dbbcf8e266221817d32c,
0x2da317c459c0b0d973e04bcca9c112726c7618ce9760c2228c308b7433d907a0,
0x232a07d1aef79c1113e3ffe7094ac379cd67c41981b9dbd30dc691eddeddbc6f,
0x6f8ebb8cb046c0aa7ea795744cefbc827e5727dd16d0f27675d99f8964492ca,
0x10db78837d0652586afa0666b721e1c94180173183300992c4602c8c1c415478,
0x12f5fb7778fb2b8e1b5ec306d3d8f2a497ee4e9aa5bf1924a694d04cadd5c526,
0xf6a94bf66121d5993932988636d0aa2479e0299aff2cea5b7efc311a15007d,
0x18b818a1c250d6f8b77870c1ef5942250214655460e4b5aa09c8066489041732,
0xd25185fdb4a3c65e05963b80310584f2a6069c2c0b07ab2b6df2d04bea0f52a,
0x63666f719c9dacd3ff39599926802bd9e07c61050b10ee79adf0da04c59e8e2,
0x25f9e2e4766cf4b7bf91a63f7dbe954b2ffa4cee7269933134b5309eaf9d702e,
0x1237a2bfe7efc853fc4e9c4fb84d8e7c56b125286d8bc81a5434c6d8737206d3,
0x149b17921a60f02551a03ebdd0a3a71f7048d0f9f47893075c625341ae06159,
0x21e129ee052da457e94cbdc1ac5738ab300aabb76a3cc3c23637cb6221874630,
0xffbccf818cccf47beddf8558b8242c90e41fb603f137b02f0774228d6978d94,
0x13018c64072bda036ce65310501ef57816d397a9eba56f87b56024bac5ebe9e6,
0x1b009f2e8abc03f498fdb84857c2091bbb0095778f990fe799d0f2c97e2c2670,
0x101546fdb71f32991c1180cc07eaecf47920cd0704691e555b3bc44de5c5289f,
0x1d1f66a2ec0621f229c3f8cc7b153683d993e220ec5a1f01d42a14db46a785c7,
0xc0d0d8c79f76f62eb8ea785853ee6aeaac59256172a14479d34101dc8e63ad0,
0xa3f038a5f37073c1ea7a4edfc1dcb60859c1218e1fb611ba59dd245399c9572,
0xb7e89abaf697afea2ab793f7cbc3e807dba45231d4fbe6b657a95f03f1b1705,
0x91c47a22bfbe8cc067f70019ea1a2eaa9b381fdf90ffa8971b247812b977f6c,
0x23502619e347553b5bbd886ba0ebaf4b63c07c289da07b0c7728fbd6092241d1,
0x2f5d5281749be90119354e751ea126e578ccc43a4c372d67ae66d87c0c01336b,
0x1ce6855b5db80c42971cc52c9c35275e8bfc7705684a391bce4151ad9fcd9be7,
0x4f03f23505d6e117603510ef25bf46de44b95506011b5642b120b76c4a7a277,
0x2f0f36a6ecd8f53af95b4b9514997ae0a208d89e974bd3359dd98fe2e2b3d41,
0x1cf3c4ff9ab589d0a5660b86b5fdf8f38ec3ca5e92c445bd4cfbe6c70de64929,
0xd907e14510611fc14612e406616cfcc0b3b1258278d802a5a3d7dd785284e63,
0x148575fd984cf84d0f3dbb49564b397c17ac817e6ffe348881321ce76e35c44,
0x13c32c26889cbbfaaf4d1f25e64bcb720e1cca45312f90fbdea8435d9e6729af,
0x2f28f702d684198114e721efafb6922c3a42dd08fbb1fd6831902df4b55a6a96,
0x5fd91ec054800f61ee128bbcbe332ec4c4eb25bc57781c436c931d5a44b6367,
0x2a07137e0211d40057d39d707b177cb576f3399b29b9a7019c3dfc7d7a22d27c,
0x1b9592c1a0852470e5fa045d32725f7ce17982505aa3317a7daa6cb31e3e359c,
0xcfd305387cda42a1f5a8e00a0ef5286e0504738073dcc8713a43c2439c170c1,
0x2e10c62b1b5566b5047f18279f4680073494290584c69708553c7729b6a04da9,
0x2bb1653a56221c6263b0c62ab8a0a773d225b414a984994b6d3d5afd0892e67d,
0xf270ab89bd220ddf62f18fdf8d278f678379e7b616006a8bead9fac9f473c70,
0xa1301e2c189208513673b88d6b3238759488f79b99a79dd11d0bd1c973b95a6,
0x24cb02fc34a8ce75eecf534184d7373b7e1c90fb5f7e24fbe8ec8ea1ef54e393,
0x1603165537fda2e431b75d03df01dee7b39fd851a472243dcebc2c96d0deff54,
0x287166d87790f5cf540ecffb1bf65acdaf18cc46a4f1164b5bc0778022e11a18,
0x2a81c998baf847bbb21f7b7141efe84f7ac56a834c7967ea6f45429fa2fb1a5,
0x20c95c47c2ce176a500fc18e5b798ebf4df4eabeba1d695fe217e003ac2f0e10,
0x54cfe239b46d49baf4568088a72b2bfed0773be27f6e7e9a2c02bbb1ffa515b,
0x8774564392fba9a0289bd2012b509bcc7b126d9ef3378da0769d8af37cb44c7,
0x24a7f216983732c11ad301538184100e2cb090742dd81c09783918404f1c7538,
0xfafa523ca9deb758cc5c0f54e485919a3b1c6caab6f322a36b014821c74645c,
0xc8b11f331a17d83848b10efb6f8716baa92e649d9ee1c9584b334d0378b5318,
0x2fe8b8a523a08c2e5ea7600b7876fa4b75938fd56c03c74ee2b60b9d1e8299a,
0x1d039ad8acc6c9515c4b4a78f1b8a85784c287d5fa0eccef43901435c1c41942,
0x1b89217c5104374c0b74a3a3ee0971ca583f59d0980c37566ef8ef363b1a417a,
0x228b4d065bd84d6104e3828caed06fe9aa11d7dd8ea90efefc28489330674b2d,
0x1d57f64ca6fb25d9a4b65736683dc6f8f90b4d5594fcffd6034443e98733af72,
0x11ece5bbbbb611968ad64b52d89d7ae5d1eebc4169217e07b99dfdfea0fb69d8,
0x21ca2fb7b186974b4bb67f95f943a07adf662eb02c7392d9f5e7526764e7b986,
0x1f47138d833b0c8cf6294ef77d0ebede94ea57a28ac0a3e64bcb5df91320f10a,
0xb95be5cad31b06ca97ca74289d89772aab0e8007d0558228d88f11364a1496c,
0x794a48d6d0201d4b3af86c0fcd5479391f98f75623105f3e266dde215d76157,
0x2455a03e833b1dafa17f29a71fd76f94d8c5d09fa1fb1665373d509a88f3763e,
0x799ea93d781c35dea4b487f9849ff1800f1b63cc97842e2fde69f547bb76763,
0x28fd070e349d506942cc217a50064cfb2e3ebbd3cde16c09fd68b7e4eab1b822,
0x1cf5001c9cfcee852fcb9f8d89e19e336dba95bec545410f4435b5b01f4b80d3,
0x8edfc4e49ac404861074e34237a1b124e4d8e5d6ccde29d1ee9c043756c44f4,
0x2ee5b6524289cdd37ce4ccc8dd19e94cd2ee72ff264b468044bda8227b110dfc,
0x2775a93e2b3eef8dc0bf9bd322e5f14281eb5bbbff98cf7ad93d35f4c4392624,
0x4c564ee74a1199444d3dc4261e90b1886d760a7fa68ebaeeb5b5e353684e24b,
0x25ffe7b20eaee8f694fa81039440b5c63eca1cac712f5e3b21af1b9a7be117ad,
0x14a1035368093069b2a4337027fa695e985b6e56ca818ff944780c1677a836aa,
0xfd53ab1fc6def97651d2d66d0f58976b39d07db8c4c9ac195db0dab73060274,
0x16476bc3bc364193912051b64c939c0001e95953c76f7a748957d78ccc881040,
0xc5a52339fd84b1ecac4a163b36d41941a156f53b2559061602e64d2dd031039,
0x21b63c30dc0baf2b71ee86b7d5c91da1c17cdcebe5a0a0e5f2c8446584e05c20,
0x1bccca220986d8fc3d22391a70bfba575a47b4f83230652e1772e2dcd1a06ed6,
0x162a9696d6df2a13038e0bc6da2f52239951a204bd05a9e2a09066cf6b13a6bf,
0x1d661af4be59bd53da92acdf5736a7dce50da796c393b4e43001d27f88d58d6f,
0x1fb43feff48b0a4e5ac9b17a6c93e241f17b5dfc76523b65dc366bc04c9f06b,
0x1e70af5d289fea2ef26141246e9635fd007be3c3d755abf3bbcda9c4e4a600b1,
0x148928433fc03d3a878b420efc8954f04fdd4958bc822a6123df1d4d15d02dfa,
0x61b30453d8edaeb5a0e7a3a9f951a7211a50fc360903c4b25a51e4e36dc434a,
0xacad4bf22e14bf31537f39286d25fb493fe67f163bddebc3e94de911a9556f1,
0x5a4dc602f73e13984177dc0a6f2d7af269988f872b817c837c8559c79b03819,
0x1d1f813dca1d8f54d73441c814ccb0e84beae8ef4463effb612eb6ad131cf05f,
0xe82c3574b61d4c239a3024d6822bfa186d5989ba1ae0597092560e8694ad9ab,
0x17ea9ef9ef7da806c992916b2409a277fff09d36339cbfdf4687606793fdee9d,
0x19454e5c7ffa9716bd1db5d707d4d24b909f4c718137ebb73a9661ef41a7ce44,
0xaf8dccfbedea2064586771a23ac776db9ac4df3787fdf857db4a2193e934a3b,
0x2748872a6ad3a07b30161ae37440d5dda279a12cc2ffe14747bf9082e72630e2,
0x1a529a39f6519dcdfe38e311c7b0f661550e388870772650e1ce02135bdae984,
0x8a57affe13513b3bb19680381a17f82101be9f5ac7be0cf9c7e61f710e63892,
0x200d13b0170c124a25026f780273c4f557a3e95cbd68684e4e4df5ec00610f60,
0x14c79a357f53469f91d01f4432b728551db863ab232525c2d95cf616f7a098d8,
0xc513fd43af43ec6c905092c6d5d50aac833f144b9630e99483a83c3402f4832,
0xab802177b395f6b6ad3dc7d1995f60eddb63e9c378a75247a08002d2986482f,
0x589d228f316da74fbd8f0806ba45fcc1f31dc452e37430050bd9cb8f3e0acc,
0x1b46df6f8889fd075b585d61925fe1f08d15900074bce706ea5fb211dcc63d43,
0x1d2b938132acf70f122b64ae172ec1a822ecbde5a188b478e789c5c3e91cefa1,
0x2308c203544d162d54a4b87d92102ef85cbbf1ab4c3c02d6642af038730333da,
0x2eb7379bd69996d813136c99c2e66f45ca467bcdfae03a315cfe39ea99eeda3a,
0xcbcf8be09e77a9b7004faa49c560e84077038326398196c04f948d09ac57388,
0x72ed6973242f117e5fc1c344d9bc38d5fb3e94bcc02f48843a057e19bacc917,
0x6670c3a568d7efb7f10eaebd727e7a424a5e2b40d7201fb66d0b74723081ee4,
0x1e2105cd356ebeaaa12233233a2a22e0524c822b84fbb368b409d448192ef9d7,
0x10f3092cb126d913e829eb1e09cef850812658485e5ac06c140bd1b549f53907,
0x2bcf1b9917cb73d1856ae5dad349ff08660e800a5b69a959add19af6558884c4,
0x7bfcd988feeabe2fbe03ae71408c1a394daf2943c8d32e41f6b72f2493bfae,
0x2a977dd5735a9110178e2bb0989c7129bab2c6f9276ff1a9c4b3867a115b815d,
0x229f01e653f7b280153de1f8d4e9eaa0e18e81c3ddfe9cf0f5185b63dcf8f3ae,
0x272ebef10616ab9c79e34eff00b0faea7521fcea55df526bdc9e342592da9469,
0x2c8a5085170dc8e626fd9f5f1186f99763976ea6ac08c253d025fb46e1526c7,
0x2b77b7c7f7b862b6bd45b894af1cd1cca444f426d63571ffe6d57e608f12441c,
0x1518209639e513d5623184871ccc1a02e82536b68d48395774930dbd4f130ddd,
0x2417244fc99acce8d1da6685df7e33876bda3dd632cd684242a60d54555b0ef4,
0x12dbd5616e93afff056e7402afb361f5753ed668d6ded08cc8be3febe58ae3d1]
".
(** constants.go:1056-1214 *)
Definition txtC_11 : string := "[
0x752af3c6fdccaf3868276685f0a69b9749e1706a82917b64ec2ef847f804559,
0x69503d417e25f4568c7858ba8334301c0fa19c1b348bc7e18a4c1ace1d15418,
0x25c1b121f33f4cf7b308ec4630f27b603d22aa81ca3595e801c5fa7d9770a096,
0x23d6b55145bdb32827c1456af4d7be4c2d213e825c1d2f0c9ff99b2273751f6e,
0x1b357bce3ef3f2b76afc2b5804805adb14cf6bf37fe2357c79aa7d6b32acaeca,
0x28ec5ac0881c1e6426ba499409894a6f3c276fe5689f2c35c9027e80944877d9,
0x2c9862524ac8a07b47d211c9c504c8b0bd398d028acf690e4b8ed4005dd06eed,
0x1f6e6f0ac4aeb7a52343f30418078b40644cd43e290da0baee92891c4c065ac8,
0x3db3517e233f8a76d21b2fb23c85fa7cacc577769edea09aae39407b9af2fdd,
0xfc333dca4183dab479c5962eb05ee4b79a8ac6e0cce9e9b0a2142247bfd0877,
0x1eed281978a8395c04289b86197673b0f2b65e1a135264527e250a5cdf99aca4,
0x2e370db23857de3689fc9b908bf45ad8f42da900fdb4cc94a7a416286555a7f5,
0x109bb6e5e04c0eb5297130c6524097470f3375c12fc9092d21ed33400617a0a5,
0x73f4a17d45ce4cb6f4db87d6f3f5f4f1650c618e403e1873ea3b8c4dc187cfb,
0x1a3bcd45a2b1dfb8e75686d3651cace13e1a22f5d838cb4a61b17417665eecf0,
0x27214751aa86fd2654ea05fd2611f0d907287433875a8b0c3eb4b22d24d73ab7,
0x1c5463d40460415dc684ef2415ba66628b17ab5f9fbc9597ba65b74892d34401,
0xf934ec1ecd7ad74de590817347658a22a783496bab9943ca1a3c604d4cb745e,
0xec2ad1eca0b260c4c6573f2f3b506e946d2a82aa5f9e65c2fc4bf65d310b1d1,
0x10403c6f930519af3177a82f2be1532e5758127ca9fc84c93c652279618acab6,
0x12cb8319683971740fa81660831ab6dbd3d93c7bcd441a912810d963582bf346,
0x2c7cbab33b6294f292ee0eb31d53daf2eb8494d96a81c0fdbd62ffc681e71302,
0x19e16c1b9123bbbf8fade03b4a36c5df8580f8de0163679b1815dc90ec581bf2,
0x2d2734fdaea6da570313df4a533c0049e44b72b64906ae9cdcb3c86708637a4,
0xfed7ce5d50ca2d33d1adfa990161fc780cdc30c5bf2d588184a190f686567c6,
0x2533b8b3df21fce8544a6e12fd4c3c1fa09d3e1f146ccfab52af1ea4d6ea361c,
0x254a9b0da17f1d13495dfaf68cde98e224f80697a0c31b89af097f3cb270f277,
0x52a196789e7e3c6a020a0d2f82c246a903ad7f8ce3cede8153db72ac41ce566,
0x21df9d899981e100541aafa28753e763a4c5a2af9845b0e9b7c4ed1e7beee2c5,
0x10e9254d95c04bf4988f6de51fb019c8a7c5a20168b6a59479355e880028c873,
0x1872d404afb8424952958f29d07b60d9f868d5f26a4d260f843373b706c3e850,
0x2f7fbbb32af67d88737201022b56a6df47d476dafa7b88784aa9ab73c57a6f9e,
0x27b5ad383fc085d2c2639e80629d7086e4030ae8e08ebb403860b4eb2b4ac487,
0x20a04ba73975ea1af86ea418e5b9fff424b93a3807ecc3aeccec77de9c1d5b1f,
0x4d2735db418968e804766f579f2a4abf79deeb66240fb29907b034db93472e6,
0x210ba11f3526101019b98aaf9492c04491eeda701ebac8c66c453503176fc0d5,
0x598c75413f3f84338c4ddf176e856f6ced73ccac8d5bc8fc6f12d5f306ec8ec,
0xf1a2d9fa8407e310c58af407bf730becd9192070d7aa4215379d1efd9e6d2ba,
0xbaf577ac2621cabdcf7ffed4073e27d1f711f9eb5a9739c12bd6df07a3cf257,
0x23ba3057e5d9f1429ec7848b893ab3b40161bdbc6387c958c5872b4491b366a,
0x1b6010fd6990d3e4928fdff736fa857bd517e35935e54a1d6cadd941eadb8408,
0x2943fdadb96607530cd9f1000db50da2fc5cb030b03985d1d3cb53dcd6937ae9,
0x9375b98fdd737f277a2ec26a56d374658f448c690fc8e376e0f1012e4da40fb,
0x1c124f9f3a2672361b19fabaf0f2e1158b313fa2374b72c370b4662bf96e8a26,
0x10e282b93792c2a893c54294446a63bb36a5b3565aad7504499fc22ebcc58836,
0x4bf8cd673199f41df6b67b76dc46cefb40971f0fdd5e1fa15ee1921ab5d8603,
0x1410cbdc261964a2ad500e3b6eaeaa50ea8b119ea11666f6558f9b3d5855acf7,
0x2b17833b6c99d8d44c68f1a662a47493daba582bc549c3cd8ce47d572ffc9137,
0x1ac55a0f9d9d4983292eb30427f1ca01b861f17809f2fd94d3d89b2f72627ec0,
0xa5efc41de76c914410e9147e5e67f89c7792b20285cd0d15a1c1891e91ac293,
0x1344b6db5439c46a22d144f4d5843e29c750b1acf7b0727106bfdb94cc023cf3,
0x1a041839e844cdaa0f7c2a61ca9259e860599258495fb00d6a75b5c503e71977,
0x2555c529d366e3d95899d9c4ad4c2d4ab284de4a45d6060ad91b8a8bc5fc24df,
0x137894d2c7ff06b141e601c9a95f5664119ca32b55dc5e1667ba62524954a724,
0x1f2ed1b26cfa389194477925f4dd3bcef79e89829c8c9645678343a13ab2f637,
0x2072b0c4af46fd5d200122be5c5011f1bff2d44ab5d440ad946db4ba11b52350,
0xcab3a8e77c43896efc4ab5bb12e3fd6d234a0dcb236c7c935c57a00338511ee,
0x400e867efb3a8887126f96ca884358e969f14ba81be4df7668652e15a581cb7,
0x594f14af7027250911a4b05478f659bab181ab426631fa4c369c361fef0e09d,
0x171345094adedc87f3840f78d3f3ed67cef3b6a6a269b97198e012abf0ebb722,
0x1fdbee4f85800afcffa10d76c25c01867b472d48da1296ecaab478190f81e242,
0x1a37c8b010fe5a7f299fcf41738c50f5a904cab582e411ac14828e0c18ba8753,
0x59cbe918d4cc5dcf2d3a31b3af2c2cc107b6cfb03b1be9a939a7f73c5075b8e,
0x2f0054d719e7f0d3991e52178a020d3b7820a7f2a075695df201a5e292831b33,
0xd3353ad739baccf5ca9a56840d99776b5a7fb60f9179dc15950c0639d18fb83,
0x507a8c3d3f5f3965e2e9fe62fe9e824691cb53afd7430b625153661da3e94df,
0x1eab1d2b44f79f50e2ba917a96b21934ebd43ef50caa5b21def5efd8c38d9174,
0xfff97abc5a6318b03b46ea4361c8d29fd8a5a4dad51286897e77c2aba9f25ed,
0x228907c146b4efa56af5b8f2e59beaa01741ab10f3287369efcd78e1b16ded07,
0x183a209d14af4a1a9db0c647ad826fb75aa67506d03a50e6e937e3a4dcc2d0ce,
0x17052b40860ecfd4bae684ae12271e93a32e1b703c3127d5d23558bd75496d2c,
0x3a61810b60e019e3a5fb53fb055f81600c8f269b3c97fc228b373bc6a5e564d,
0x296d0434d977a105b07f8e8d537a8381e885dcfe482c3ab773cf1c39b3bde3c9,
0xbfac73b8e7f9882bf69125684ae20c7184882d3763ce87911dbc3eaecfe86c4,
0x13900e213c48cdefe3e7090111aaf1c0873e21ba0f0b124daa1e9089677ea937,
0x19f5725d859bd99469369d8a5b029401d90a4c7cf37267b4700ddcee31f78bef,
0x10f8c20b30622bb769d902fec064d87fe8700497de4c3a32673414603f341f22,
0x1a5d44a9d6eb166727f3bad1e4c9e4f20dd9e5c09b8ff1685813e84875f7c267,
0x285812d1f7e9c5652ea549efde3426019405bb080408b01f51ff04af5ca4f7b9,
0x17b5d657ca524c4fdcb6421bbf15dceaaec891e7a730177865542a3ec67644b4,
0x1512120e54def6119fc731a80ebf8b9aa449a5e6a5654dcb16ee8781b55c40ef,
0xce6fd9ff326d991817ed66f0fed93298dc8116c05f09e2144830c07afa25700,
0x14c9e544ffe86f310c027522adca6e667dbf138a586e6fa425bf1f2b2114bf80,
0x2e8ba8e57fe1c4ea06a941cdd2242c414fcc9a1e645b7e137ce61fc4456dfa25,
0x1a1fb2e69ebf43dcb8ac7cf0e6856170be8c62ca1db0f77120d36aade9fae908,
0x599e10ddc716d701d5857e23dec1130b5509c3913fffc727ce207783a2acca0,
0x2908ace556ff1f368f843e0842ccd0dfaa42a34faf67e0b78de6c47de2b6a036,
0x1e80d381cfe184b2f11fe38d64454a6292eff23f524d6fafae34ce150d1b8405,
0x32c3b2a8872c39fb3edc92ef95e76fdb6381f829fbfcddef26004da5b5d720e,
0xf058306e4f397b7b02a58ddae87d5165f21bb6109be64cd3175097f63d0d402,
0x2a978242c551fa8626d0def5ee59675998dd8ff90eeafa7d935b58b8a2d0d1fc,
0x2c646cf8d9ed14746f8a2a438cdfc86b70fa1c31033d4afd8694a7363d1ca0b1,
0x1cc7d59c756a8e93071f95f1eb8a5cbc2aeea366715432873be8f94e3f9c8733,
0xd09d0e6b64757bdfd7128d041c430b0d21a80a3792d0674f0028872c14fd8eb,
0xc28d39d145cb8b6afe18576403080ed19451473b578949a491a095b6a19d082,
0x22a2a85f132915aa09898077bcbd76e572e4340d8085708eefaabecc37ceca1d,
0x1ad68c4e148a6c6197fdd9fa2c45f8c6f3111ddac52db08bd2ae77860e203a6d,
0x19b59a4eb2398896e27a0e670529fbf4b72c3953a82c2bba9541a52186cf7477,
0x1e3aeed61e3a7bc6dbf7674f8002a59ee28d3d5d51abbeb5d850dbb3af50559d,
0x237d14fe10cc10d41cf7b9545c5dacd245207725227ee5d5578a3cd163c4c161,
0x7a561b03c03a856f5d7b15e895448401a8a4ddf1de311b51663640c81cf44c0,
0x20e3c12021f53fc206893985647a3ddd64fb1660257a4b9d7d33fba8be729a1a,
0x11cfdd5386f9ddf36e9e1a271c0a8565e03aa7e427c624c5050dbeab40b10b65,
0x97b90f7016668c55385a0f101b699d0c924d1556918eb58c9d9a16c7815b3cc,
0x23dd4f8205e9cb9e123e27e80f46b8ebfb4554df41528acdbca14166af70a8b1,
0x2004cf48392d1d3492069d0b20c5ea636c7de4704668bae0400f32d0678b5f90,
0x10efba7ebb220de9af4af5b3d2cf4e3a463d6f61b3a51b190b392897922b15ae,
0x26ca8fa32860470e9ba95f2b328f45b6d3aea8c6694f52f7b2b6139b31f0e659,
0x2e7a6096889e932c3bbdc1234b042946ca8dbc3bd9d42894e227abe994b3954c,
0x2b2a5b222000c7485717e5134d31d966d01094d20142ce0be0ed5bcd238fa4fc,
0x5d252566db243c26ceed95719ff4e6b2db926a82a90af66c3913457724d688b,
0x3016d7a342ccaefff833834f8c85e4cdde502f4cfd2e5e67a434ceea8e7e8734,
0x22e4a5742720cc545f5a8b5ec81fc76c856674c2956c74e93d09da15b9ea85da,
0x158c039583d91471651b425b67a9c428746b7d2ff4d3f9c7805cd097252882b0,
0x2e2b9193aee7573ba18105d36d5452636f0a4a23f6bb808dd7b8351b3104288c,
0x15288eeec077977863bbecc27af0e88653434f9db50041bc64cae3a4ab0267d6,
0x294ac3d23fadc39ffde4fc51c231fcb1e9043d207384a51281ec6993806fcbc3,
0xc994f0154a6042df030cfcb8775ea9baf8790d101fb004f7921bdefee4dd,
0x23be197c83df334c3818a4eb54f3755fba5ad61c6ca408d6fcaee753a2e449e2,
0xabe4f60f5710062df7838a25e613eec5c7c500292cfcdd88c4b104f92e66dcf,
0x22d9eea2ce981be68d03a627a1ac38ae17393b42fd589e8492df86bd03f69ba5,
0x17fd7f4e675f456e77902bd68da43d7a0cc8ba75075bdec73800b670faef2c81,
0x3cbf13917d8f6962b85bd9b1b475e083a9a6503290264d732bc7045eb4c0e7a,
0x13e3842e78b6be3414c29bd5528593673bcf7a071c9e547d4a6a8e8c1f29f43c,
0x2638bcc34e7ec977e6205a356d8073edaeb37d6d0cb2ee15ccc657e00884f71,
0x1824a36f9b33cd88b29d9d56794c02f0498c8c3520cfeb8d7d23df01dd11bcb8,
0x2f64d3e9e9660efd747a28a181719770cb89acc868f1db0b42a0d41424d5b97c,
0x27e976b95c1db0a431cc63d2bcb77b7420eab7240caafbd4f6ed94b771d7ee20,
0x71017cf059038a6f1ad9223c843e6f687774a7b677edb7d7dd6d4d8aaddff,
0x263e1eb69b7b2c87f3d9f4d492100367041a00cc20091402d6bf495d74deeba5,
0x1dbd8f7a790ee4fb6123d8162e879b6d334e137c224da75baf9b00dbd5b14a27,
0x1df0f444008cdfef43484dc04f5fdd1694d6c90e8f2e35a1850831879d9d7a2b,
0x2ac29049462ba770408914036f0fc449f4ac15c4a5c16768e95e2486c62da8b9,
0xafee4216cde441ab47db90ffdadb12b08978ac6f623f3acde4d4f9d8c77f3a8,
0x1f5df5e1d3372dcbc83d7072bfbf2ba8914024e3398ebbc3461403d39a1e9895,
0x11c09f4be4433544bb604db662a722bb16824fd85c484c45bf25dfa5ea9732e,
0x111ea5feb756eb07f942b5fb23849db24d1065b278b4643d55311c0672cff942,
0xab7c194763587f1dc30e0ed53aeb6eeb6036acd702bbec9509d649a81f940bf,
0x282c5951f988191603f9dd07759a4f653f19976943d20e30d4c0f8faba0daa05,
0x23b82721a7cdaac2a39f7b4bd10176e50983f32cfda8bab88ea746ebd4d25ee5,
0xbafc22c31e735870dfad91a56a46ebbad29b29e531649c85bf79c8dc91c792a,
0x24710e9cd9f6f42f71cc8815934ce87ca0d677facf1f3d89a9abc2da898f9687,
0x2475ccab50e2c13fb5d772a07571e0e6be551a55e250e44f22adf1c7a4d7ede8,
0x17326fde68e193e4a31782f2acecd7a468493aa94d63833575ae5184e9ba2441,
0x1d044be025c79f610d4009ee0a3f3b50dc556e785718d196e67c60fcda498459,
0xbc38517b0bedb66a044e38b1c199d110fa36adfa1251d46e635f22ce8fb3b61,
0x218a7ed7b5b4e39d21cbd4ecdf0d4f31308cc205583a9ef6d91ed6969b45c27,
0x70989c23efe1c0d6089f9bf987be86854b4bf5aa88b37dda3b4fbdddb068f36,
0x11f0a1f2d5894630701027346163a4c6974023d321780e91c8df5e91ea930c7b,
0x9070202bd144c45ab704c72dcc40a5566cbfd5826f7af4746b4472b1e68c390,
0x243392fe4cd6ca6b6747596c387450ce6a1ae7b0a90eba222c3470d8a80138f7,
0x1a94265093ab44062e5d0e67df9f4b702df8de8dfadcac6cb4229681117a5da9,
0x1ab31ce49e37f690baf9ec7b1443357cd24d7bad16a9e6e95e43b6564d987b1c,
0x2179ceef0feee3b0b03c9658e97b6342f25b208d7ed8e526150fc3b559128c5f]

".
(** constants.go:1215-1374 *)
Definition txtC_12 : string := "[
0x1512df0135b6692589f071140a60749cf775c642b300da2fb4ad5c6e23ad4e5f,
0x2b109ae037ed30361cf6544b2f4ce58f356589896d6a8849482ed3f9b66e1198,
0x2585bece06eff553d485478a19eb149e2111ae4e1ecb1d61fc10cfe1c077f34,
0x1ff896f4c0662f4b2ad926741b481d03b813a8cc343b9c2d2bc4819c70b2f3c,
0x1b0caf02f434fa3d4cd4fbb13d3116ac8b7386a5afd6c67076ecbc3704aa45dc,
0xfcb7c9f13c85517a7805894ac82b57c06f2f153a6f51f60f8e508684dfe5bcd,
0x2dc2bdf7f43812e39cef210e42e92b4968ad8bf554541182354504d32cbf9954,
0x5add9df20c1898da46bbf74594438beb07c9a65635c90f45c0a08febad13664,
0x21cada6641664daa997fd55ace8b88191cdc4194fbdbb6ca5895447c8a58859f,
0x19623504589a60f058b04489b153324d16ed66667a04df572b103590b848bf04,
0x1776442d850a436a005e02c6475b72fd2d5f84452890c444162848ee1d57dec2,
0x6c1691fd6d2ee98396610f3c868d70874f24eff853938d87face89234a09a98,
0x17f0d5cf360c354a57e7fb986dadb3aaeba094920e772cdd9abc75850400aff2,
0x3062c0db9c925c48cc2f80b698d9602642a84cfa30e1bd36408e2cf82ef3358a,
0x239ec7e4b4723c8ed35b987db03d62c2a07c447bdd6ef183b0647821f6874c2f,
0x2bd39ed7f4f6a72d02693e967740b5fa0314d9a1f8d9f8911c28dad3f15ffa6d,
0x20350e75bbd562e339269cf7fd221fb7c6ed2cacfcc9036568bb4ba5cb17bdc0,
0xe97bb9d9784920fb39abf35a433437ed6fb631525285dc3c126e24ef54e4b8f,
0xb12ccc871d3272e80a216461403559048e4a5b3af445eeebd8224a7edac685d,
0x1dfa3b05c202cd982e3d73cb81709d5d48b3cc105fa78ec8f0f216436826be2f,
0x8d9fbb0715c9bf131d6de70b288d94afc02d46960459fea30e0733ed3be6b,
0x292b7514248f1ae662e5437705ce49153e5be27c212e86107df1725ff465332e,
0x1d58b0684f64db621ab3ad0dc98263fd7285d6bcd86e07a145bdc6aa75c901ef,
0x4e7bbd68e9989a91190082f0b29b0b0adc2be282761c44d1ba687757514acc4,
0xd93a5374677c75bdc1b4071b1948e53a1b67308e70ead178725b08fd9ed8d22,
0x11eca18889e9f49b1f97d5998d235f97c163d1706b4d3d4c380d9ae1f3e79a28,
0x266b924e67a868a585b398c2e3f28e3218783237862bab3e925e6e7a9d659a60,
0xd2e26ad58eacea3b6a14c1c7803caca7ab3c5881bc6b5b274531c2d461867fc,
0xbccba4532b7eea6c3e40135655171fbd92713ef6e8218169591e5013a84bddf,
0x17a12ea9750405b3d59030af035c18e4f362e183da6b84e985808f320211d061,
0x76510bb9eb19070dca388a1d3a95aecc5de4a2c69c3181665f982b60e0183c2,
0x1b7034b3beb0680b858bc8f19528e8c122d6f68059b15c70599910c993b6bc00,
0xeacf7ac9862ff85658521517138795da59f4273f1d969f815baab2382b28bd9,
0x1344043beef1afc165d094c8c5da43e793bba98b579f2417a19fbfe538e2cb80,
0x566dca10a0b92ce177b6f7282493e6b31391e6edd3ff4563277e504c441b1fa,
0xc9c6b5c46b9877c2eeacd033f184fef497d2ed1a1ef276ba4548d05f3c78387,
0x1a5f92921d4f34a7445fef0618f1b1a21d68714b80b6850dfb9c834f988a96ca,
0x14d14e621cbe627022809f07ee078cb2b3fe4fa024715e3f7192a510f1d8e106,
0x1b6f67ca2ff07a2de58f7a0ac8607c92fe8c4133355938cc9812c32b12b8fc75,
0x4c3bb7f555a1a8747edde5fd33feec3ab52f53dbbe6ef23f7c26e62de26fa12,
0x1aca03a3d87c90e7a3ffbb8233149beb0b6809492d33ce3e507951aa38a66331,
0x2294ab2f143e49a23d279c6fe914d67ee878b3dc54f9d7ff107bbe78ac2ffaf1,
0x2fb43038c0b4433ac0c9809f4e7d7e688f5c1d3c08f66ac64397fae941e6aa43,
0x274479867a616c602e87c7521fffbaa85fbeb330128a3bc8c8b8360fb5a3296b,
0x18a3410d063b4e72016500228d8889dc623201b4c055dab660b65347fb4ef820,
0x2d6fe8d3d694ba5dadb904fd6904a251aa2d351f3cc11c6d1aa94ffeee452619,
0x1ec5182518d6d3490ab0b3ff899ef89b61119743188eddfebb254dcd2a787e20,
0x263a061f3ec9228bdf93eb93f2695fea629925d6dce82f18e6dba79b3be9ed0a,
0x2fe0300a8196b9a46eb1f7d529b4d4c09dbc58765a42a9f3b61ef7c107bcd226,
0x862f4486dc03350ea63843db9da09a5a3c3012c0854a7acb75ee18363dc0414,
0x9ecd01d7dd15316f2d3df72a9e731274dae116592adae8a81eece51a4453353,
0xfc127ceee377fedc0d2da69617739fe790bae028858dbe5db8a93e3254eb8f8,
0x15d224160265df8e5e4c1b61e7f9560b3dfc57649f3038f440b64e928bd32970,
0x110f785f7d04151a37b44935a1bbf4782afc72ad28e042c42fe63e6302550f50,
0x17fffee137039b42943e6f8d044ae87ce06d5fb1c3e2e51e3009a45fa1873f70,
0xacb1888950067efa97acad9291f63c05245cde116d7e0bedfa1dd90dac185a1,
0x22a4abaa581375452fc3b531bd4ed54fef9bbfee016e665e42493f09c393fed1,
0x25adecd63680d23f87be6226ec05a2bca8524963ddffaf863379d4c81fc793c4,
0x220ce90ed6442f459eca1fe1f2027e6377e7189e0f6ef43e1cd364e9ca1ceb9e,
0x2372d4e4009fed5ef65a3641db3c8d6ecb33040fc25989039394481a94b97195,
0x11926b0acd944afe2030cf0e8994d90daa535f465967b64ab0b6cf69e316a51f,
0x1229359753fb4a0dc741da84bc9758aa0a7662b314a31fe003474faad18e3800,
0x2b3a66d166c51a62bf6af2e54897c51e45fd08bda74d5857adfe8fe3e4bc3977,
0x1e7f4fa362bd86d6927781af2a4cac46a77a19b28c4ee55b2ba0881d2f7b8e2d,
0x91f7d66fc8ea2e7ea95ec1876a93d33688f9f9d47d3c8b07df92d1554e38cba,
0x2c17ae7d9af800bd393b5fa0f8b16293daf49e5afcada50847795b87e12b6bbe,
0x266e76891b0271bcad1644b852ef8de9d3c3e7a53e22f6cf096ef44fb35bbbc7,
0x24da30c34e49b417e6ce696fef7eb94e67b4d74db6d2d5cdaa4777c2602166c,
0x4c3d31703ffeea22ef8509edd468586bad669b74c25fc9ada49a185937c2c94,
0x2265314c66e182feca755f9a0cf7c5c7f7db6b501e010c283159f5fcc5bded33,
0x1aa1766643eb30f96329fa3eccb67964d510054db9599f5f2536d7c37f5c1149,
0x107e8da68896a4d3ab40eedf2fa75e025f787dd92799357218e823fabebc8947,
0x191aff44b7bf99027bb1d6954ca0901c950f7ba8f1e1549475f0f28ac6e72d60,
0x2d6a00ed5b8ab0055a4277b39d178918744ec5b4e5a392205dd4eae9b4f1f507,
0x8bddd13ce3e6d0add2babc5f0da3ed9c24e10aafb289d03e968163c44f4e669,
0x2f0575cf9b7deadb634320f90d84678d771833f9ac9d1b67c318973fcab18f13,
0x1366a05d3047d5b3452fcc62417343245ea727795fb0d05efb80a75e1e4d7cb0,
0x234dadc295579c62b1080fd64f340594eaf258b94225fcd6beb10e5efb4d6fe3,
0x1f78b1c152a40027a2c7b0ac19bff6ede3202ea1b95e5d0af43125a33cea7821,
0x1532e8db5fd0a6c2c785a0bca111741903fd089d9b73715bf0dd70c2e14df9b2,
0x9012747fffe05e8b4482f278d35a28c6f58e6d502d69a5f351225225aa0279,
0x105b192f778c42354f2a979d91b02fd33c52c59d542a128fc08e5d11c96fbd65,
0x24bcbd8a492f542d2e6faee6c503c9c6f7a67cfc7d8e756759e0bae679920b81,
0x13e55913295f26697ea8ce1aaffb07373dfbe24b8f41e789e05d8b96c2dc9e2b,
0xac524f2908d8e1292a18ee6d5ed583c29626eebd03a593db01a61599c286139,
0xdc402c7aebe3f023ca4b75dd5f69acf8af6607edad14bd806181077e41168a8,
0x6d687b70f200804cb3b39546609c1ac2309c4b59fc96c7673ebdf2c900d9400,
0x1e0c2662cdaa91336e10c7eb3c6eab12330a99da8a095e928f73a8b45accc8b3,
0x14be0cbdb25a5f84d36b415f71ff807f9df89dbe6a9850213a288abde6db6264,
0x2fc8c8938e2554d9d02e135eb0d2bd251390902e82d6ecb4ac37b8ab6d12233b,
0x2059f3ad1d4ffa2787fe0577dfbf12701689bb3359647219d84a000e95c62c95,
0x1e90ed09600b1ad7e5f927ba5e40d6fb87bb537c695d5ab6fef166da18fe7f4,
0x64fb597e3bb0a3fdb8ed25eefa943f6ca21150b4e029836fd31d63cb81223ce,
0x710644314ff7d6091eab77327421b8b18fbd64ab6f6756b61ba96d79854d6f2,
0x17491b622e2f47caf07a2abf0b623896e973647d02be011f099b84af45dfd1dd,
0x2c7aa4382c1cc1897988dd51243facdbb7d37e8cab2e27a26dd7fb0795d77712,
0x14695d28c7fa12ea6044e898a6d8a6592a5f111a293624a45dc24944f77bb711,
0x1602e77d6ee3a46b60aca6ba65c81457c4d36c8ee14b3559966cbea0ae32cef9,
0x1ab02e5bfaf9d4ceac75f53983bae994d12d0c44a280d7e2df3283ee1f429ad5,
0xd2b3a148b13d8a541e3cb82d624cb30209b4f58fef5121bb74e8eecacabd939,
0x2e682ed8f03c5e95d84007e89a92043c968111cffe9d18665258df0d3a6a9b8e,
0x1428a6b9c8cccc597a9eada39c3cfff0154fd9f5ce4878d9963b89c7a878cef5,
0x125dae4075bd6f83314ff7172c70f192173a2d4eaf09d887b942d45b7cf7ada5,
0x273aafea62ef6ad185bbfbe54a753e59f639ab2dff85b1f4c0a28e2136d4bec6,
0x179314705df4e0b530f1d37f9d02c3a88b66e2272edca161365615999b1cf404,
0xdc05aa8617d57fdbe30d76d7407add6a2e95fb73e9f942e4c242e2ed1016318,
0x18469f35a1ad56b258b1e60243c962ee6dc99faf274f02feb42a8a51182652c1,
0x2f79b79663182739a2fe0c607077163df7c0e9193143234337b9007cf472ff7a,
0x1bb4d4ae946d5ec7cfb22cea828d263b7e574ea777aa891cb0ba07cb412c2413,
0x27270b27dc8fb9ceb1c5aa5a49f97a795c1dc652f9012ea2110ac6877df6c20c,
0x14da35468739dc3ff0110c91ef540be904c73e5d71e5b0b5eda5ec6dcb2f6eaf,
0x2e90d9ee3e7c2164851b64afbcde004b6c0b82ae7ccdf6f78849fb981a35a2ee,
0x2b15612eb94247469bd9475ae4bde9780511cacabd566c1e74ba1761d60b6158,
0x121c521576ba4ae4a05ed2565651b2893d5f704e5c6f0a642c60e50df22c8ef9,
0x23863fd0801582ee9b9a4c83f3b6eaef83c59068c0b1d4b9e93ec5ec1a0c2938,
0x13a597a19307e90fb04778f82f2e6780a9e2c4e03cb0515e2cb960c51838693d,
0xfe4f11040f7ec803ba86cc6dcc6ba00ed7569a00cb4aaf5685d014beeca35a8,
0xc30eddac033e3f113894327db9763aafd747b32d1344b65ff7108177125de2f,
0x16449ebb71737c6513326b4636914fdc9f7864c7f10025a09734880d423cd1c2,
0x267f1aa1162b7284cec8df83403241884bf4a29547e2d0c470f6abc19fbc4e75,
0xffa65c12b20f5ac05ab035a3b9cf0983bcb4cd0075d9a9e5be77ff9b4f17bfc,
0xfe550d9e4e3eadc68883a977b6869a5887db153f6bdba49233f60bef77bf44a,
0x255002f14c45aecf8cbdccc25c25cf16c9c771c653dd213a2ce22e190d7df111,
0x160c6500540f89b145de5aa9fe944604eaacfcbf1c17550ec91da6078082ce1a,
0x1383faf37b866d99769fc32b68e45a753f803ea36e351bec34222729356c6393,
0x240b1af70af648da4ae6886dcad5c673e5b36aecfb7f2e58bd12564c5a77697c,
0xdf9f10587e99fc6280b6a84f0ab1dcb4eaadc8958518ea2bbd5e648cca49e1a,
0x26e4261f23f0856aef429a307bafdf1b57335d7a0f38ab992a77a5cca9b50ad0,
0x145b8482c15986fbc1a4085dab239bf2d5b524632baed39273551273ce1765a5,
0x25101aa4715ababd467f91767d0cd0e8037741883381e392c8521b08c6cf62dd,
0x2896258f1d13f8b556b92d0b5fe0684f67a8665bd97747eb0364ed9b41cb2b9d,
0xbfc25af60e375f1a7e09ec5c0411ee14b52346ede9837df5703420189fd877f,
0x29a042bd25d6f3aa5df99619a794de17432fbd1c75fa33a1010c1af30cbcd828,
0x1cd0de72b658cfa8975dce977ccc6b6cd06e4f8f49e620e72d7ea84ff2373c01,
0x2197c4469eecca78bd4629b5d53bde29a8d3222bbfffc5948052e039f18e3461,
0x59c6f40b2b1bb82739356c24e78eeb900d1d1057fa9d48289157af603d05dd0,
0x18ce307b89e3700870c70a6e9460f1aed5169f729d2e75f7e6c7e6d0298fc334,
0x27c70ab7d57ecf0b8348df89c42e3817450b3f018519673f9f508e5e1ddcae89,
0x1aad5aabf3751e7d413b8138c2769035e8591227395d0d1ce29d1c5b3b42a54f,
0x165634b54770542a49ff684eca304c99d9d06315412252bb82a2ce5efe24fde9,
0xbe7826f267e77ace74a4eb0e10e5268f07f52cefc1d7b74e7a5b82a08c85266,
0x263fdbeaa2840c05de52dd10fb42817361a189d2abd54ce145fec18cb11b7ed4,
0x2c1ddd2e896c9dab5533d8400df17eb353a0191b9b97282df18774113657b473,
0x894b90c18b05d7ea347b8dbe1471fe0020b9d0b1eb45a07b0f70d4b3bd90228,
0x3056b80856c9e6ca2d92a5bb3ba46c03de22785d58565aba508d2d898068d741,
0x1b3395901b0049172ec09a314e4a4183563727d32a87767a094d70535336be93,
0x143e65a2a879b7a35660da4fe2141be33c17ae0e6f1324fb3cd9a1d061a15757,
0x2f3f3a50c82372cac6815322698f09826210a571a9cd64c68dfec4711a5fe60b,
0xbcc338d5a9ad15519aa00e89fe52cc24491416e1ab69635a67d3246e58b12ac,
0x2a462fa9c4a682e118cced65a4aec9212496ddfb5de743729cb281ec3a76a8fc,
0x7391449ce7efe315f816f0c1c3ad33b520007106ef8d11c2a2463de270ab282,
0x8cc2bc080753c7730c57f179e38cbf95b95db1fdcabfae0a8d239342fc68c8b,
0x1ce160503379a007e38ab3cce61d6fa0d78ff6b19526e1546023cb6dde3551a5,
0x2fe5f53e6a16d7430ec9a765d640bd5de6587509be8bd773be71073e4e652975,
0x2b9d6359e3de7b25159b8d2fd42c96244ad92bcb54f26ad8a6a10b2713de4d73,
0x2f730a0fbf24810d49065521296809b50c5e96a6bdc4e3fe44d9d4517a259728]
".
(** constants.go:1375-1547 *)
Definition txtC_13 : string := "[
0x1373c771cdf15121a224f330d84b6688ef9fe0038a3bc26a28e3196578a0000d,
0x29f9fbda3c999836017f76e121af3aca5ce78bb48fa867a6a95e5b9db387533a,
0x1c7eb5116a20075c169b786d9dc86a24ee7a2525b565bbc262209a8cda490528,
0x21a549eb554f0f859f61d68f1b6bbe9aa3449a6238546bbdf2a1c308c9cc52e6,
0xb53fff701347d1b9df98b46175800e0d3250ac6d4a1afa71a349ed195873508,
0x2129ac4742415c020db2473999b34dfdbabba3cad4713718f95e6346e1583b7,
0x1d28f305e8b0ec88da37c8251b0c8d230b68bea9401a15f5124d64c5454bc29,
0x1ed301e02e3fc930999fce6d3744c23596700c03720705939d61cee451faff93,
0x2edb1832966e34eaeee0903858afedb13dbba9f7c802c83ee628530d0e26ae1b,
0x123daaddc930c65fc67bc77ca8bf4123fe81fbd0501e8f89ac31a698756d87d9,
0x2bcc36362c90210acf67d5fe21d53104e9d5478d057141d3b17259fed8e4a8fc,
0x1fa928cab5938207e898e61d99c7d616269144f7900815b17095f7ff76e3c9d5,
0x29c2f1cfa72a0fb8f53a631e84cfdf5cc18fb426c254f5a905fd3e831fc7c837,
0x2da58609f78b29ae6889f95ea2e8ef01a6a6c2814ed02317ae9e7142a29d301,
0x2bef1f45efbae1a4f77721631df4f6982555d05ac5f5ed215dd25939af5c1b06,
0x69266bb89813e77b00e34743aee026a873b7e31fc6f64ed57da189c460142f7,
0x2b7198b043ff31d915deb9d5fdd0338e5bd8028992cdc033eefb9cebf92c9f55,
0x20ff6cb38e8d9501add93d1684e5420d1bba60394e7c02787a8deb9573878000,
0x16afd4f19d312cc4b2568dda85d89dd7c834b05b4d8ffabf4410f15c22b77cbc,
0x2bc96c4bd9eb8f09c17483aa57c5c05f002c6a21aeae2201e882335bedf4f1fa,
0x1827a11b658414b98b8f76dd10bd5e0fec96568c2fe059f71999ecafbab0a00a,
0x202d1bece537583634b6e1e70659a1bcf1afe1c7775c478c00648b437578d9a9,
0x218b5b58b3333e735ce7c88a6e2f179e907322150a7833fb841325bde83845,
0x117267f052b39319c4ce34bc8a543b13e80784662c208ce378ad6118fdb0ace5,
0x2979bc493ae1eb3e0df74316cf12fdef6dd1674174a00ae9ef908b3a2df98ab5,
0x1925313243795f90651c448c814b13f2fa988cfc8895c9a2bfa8551164461a47,
0x309b8bc3b0ab07525a643105acedd0ae664e53332f89a185ed3d7f1da80203,
0x2c514d1803b41345f96cadcf983dcef5551b7ebe8ff78f23ecde23ebd5a36831,
0x23d56ffd6d38c9ba909730fbe6443cb5b4cf9a9702efdd98696652c3f2d1775d,
0x1eb7ae2f9df6ed33760e51a351cfaa3f4aaeba7c854b85bc6e2b63cc3f2a3dc6,
0xb3a63736983f365880bedfae6fb8fe5eea0f32e0b398e16d610d62a82407957,
0x249f511f31c4ddeb74d919cda9133fdbc1cf2d9b66288c9ad13e02c719c39612,
0x121d3b76e65bd665f5f5d2908435c2571441546a9504370a0f0c33de6fd7e738,
0x1e1fd57e79cf042b1b3b883d4f4265f15f08839a8b5c3f1802ab7b62d55eb238,
0x16fefbda0580e528dbf2648ec82d6acc114c3c1b720d56af01c542ed6d656b22,
0x83a8b8f4854d599ee237fbea3239f9090e06c223b77d130f591036be8209dbf,
0x2a521323dfe7e7e2cd622674f46cc5d64123113e3423406966ed06f2e7d37935,
0x10fad028a543b9445ee6841a44434121317b9a163e423a7bd6c0852ec521e965,
0x274bdd049a73b6677e0ff3e64a8d76d34009e467760819a9b0189a94ff14f79a,
0x2669e29b8bd468aa3991639947dfe76fc166111d6ff1b24139d2ffff1e1259ee,
0x12f59494b5695acd76123fec001dd777e40278b7342b34863e61dab94779831f,
0xe45ac1f353f45ff384658f34bad47b3b03da93784b770b607d22ee036c8ff62,
0x270d5a7fc5af9d4ffbc6edc57c91594348c60f3ca8a794d141f57c7aea7b0e20,
0x1c57c847fdb709bfd38776164af9aae7175005861f6cce68e7179dc8eb8d59da,
0x97bd4c74c9ef8617f364e87d90a2e4f461c57f2e7b42dc48b245973a25f8198,
0x9399dcf5fdabe6afe6c02a3fa831bf0a4f92cce46654d7aeb4aab80067863e6,
0xa11daa6724ecf2f75d8e368d31ed437dff1bba0acd32ba12288d4428ab66d9,
0x95ca5b00386b675738ee39827f9ae5a43ce09cd2b7a708c526c9d478f650906,
0x1161eb2d96d8f5e199a01fb1712c5f4b29ebc97d5de98e644474aaa34391f75f,
0x27ca09bcc614752905359dc489829b9ca0755de8b9efc1ccc6d83477db1bd60a,
0x2f2ddd101005b0d76d47f4440b2de8d982ffcb26416bd7acd5b1218327097968,
0x226bb0d31a8e961ff7925de0e07d33ae63c3e806ff19f375e8e96b150ac2eb9c,
0x1e50f8ce5e8e48a47693351bc4c95fffc274e75aad2fe7e6d607d8061e08da17,
0x17e98bdc10062dcab33e194593186fd29f06a5a3cd95a6bf373e314047ea75da,
0x7e6d38b28db0d587b13ac7ca4056fe27cc6e51467253b9e1b9318b181f61ad9,
0x7a06dd6230750e3f59b57edf6b3fdd71a4a1485e2b9765bc85402de6c539e15,
0x224bcbf9e7ad9eb63bdaa8e679c0ba67c594e4c8bebd2e06f1d736c4fa5b9c19,
0x14e43b10484fd331ef027a94de953dd133c14e823656e2a3f7580376d90b778a,
0x21c2c69e30546f53363e24e6032202627228f2d32c61924ff4f64b7b3e93a8c8,
0x3fe37796dedfc13fa0160d2da3998890a3f20e8c3522c4fa717e10796f40715,
0x2bd5b2e11cda485bef53bb4c2c654c39bebb5814b06134902858ba1c79fe0883,
0x1db6d06d30d62c08ffc1c2249d3297734c08dc141e9ad9abcc251bf4605b3b63,
0x350d5175824d117a97a0c758ffad0d3d23df500f097a25f8e061d79dd42aeed,
0xf46d145eace6b1dc1bb7f218431ae9af0c9278ac2912ca102627a656be2fad3,
0xfbd2953a1cdb40ce84ca589f711a8aae5e75c745c5ca4826f65dd2bb50813d2,
0x2e6fee6ff51b2abf66db3ce9c23271ba35caed4e6893762161bf7283e0c27982,
0xeb4c21214c0ce434010f1fe4733a327820e1afe53ba7233312df51615d5897,
0x149a01e3644a9aea475d77e728a2e9826f6b935ccb5de9f060c0a05d8904a470,
0x3051abcbd422db239b04ed4beacd3b4db8bd045b8d4ab36a872454e362f82b22,
0x138a0119816ee4ac8015badfe5abb7114820f161375b6074205af54887e788e7,
0x16c8e1464970e0d76c1e3c4073e63fb2e514b25858bf46adef59b1751480f452,
0x179ae599e009a3f1027b559b07961307ef54673d52e8bf8c4f87ac5f999a9ac2,
0x13b3518cb4a884686be5ef802fe3c9a0761950f2e5f66a469df47c4980fbdbce,
0x52a354e6f8a8c482b9ca8fa51e4732763bda214a65fe575ff12c954a433e27b,
0x30348154b1407f9bb3b3d8fe8decc41c770cce188d64ba7b0218515b3622fe7e,
0x22493fbdd06dc2accec415de98a9d411e393393e648cdf86ad3efb60373da4dc,
0x2bd33c38d67da9e28ff22b4ae3b6e0ea68c6c8b275d64408cd7c0bc7f3c20746,
0x18ca35802730ebd5aabf25fc7cd352283442bbfa6e925e66e8344345932ec3a0,
0x123a15b31db64480736ee720631ab0088a24167d1460be4dd420f7cd40acf2e5,
0x1ba31fb49dbfe083d1f4210e344596a9c61e6f4bccbfeddd88f3beb168921b07,
0x10c73167a97d9141097672c848cf3ee8116d380e6f1301778533933a078f2a27,
0x12b2f0963b677d68900fbe2500bdfd4b532085e5cafe9db9c2e636a8ab0c98cc,
0x1feee9a8c818254bec43c0bfea4e01ce2a7e6faa9a4dd01208770a6f0bbe7c35,
0x2388c6a47ec73b9c198bf0ad3d5922e3598457cbca82d0b1d2cdbcacf56ae36d,
0x1bd9b76b67a672ec982cdbaeb55e14628a4db0792bc0f52451c475cab0ecf3dd,
0xb2ee64ddecd3f26acc1c6c44ef1643b8eb6e589d0304fea3b7b7e1e91c2f534,
0x107f80d883fd761322467565a99dc8786e69ac197fbedb7636432ec5cfcb2678,
0x19f0a831e164772368d5365a0107d0ae264ba97bd5160bee069f1e2b459babc4,
0x99ab87e7b852429782bcaff58bd19649ea26b24e493b243c71d411b48e36375,
0x18db42f8cb42180422587e68173a24cd0dd62f6b17009897541f16263a405746,
0x2a22132453db2d68d388b700545cde863d652bdbc5f733c692a1863754fc7294,
0x2e3f81e949bbe1a2e8a06b70e21d433a1036aa684bf39b7e933839973867ea3c,
0x2c21f85518cc932c232aafbca1e4eccaf6d7375a80b1542828e1aff7ad8d8442,
0x21c0239127fe8b2965a32cc7ee8d063eb792ff468703c54cdde10092fa9d922d,
0x201c6b5b791d42b85000a1011ac52b25bad5309ef4f482e26110310001bccb4e,
0x2db1d234cd755ea9599fe56001866bb4b711ed049227d67ddb35c03bdb8c6df3,
0x18498b6b4ebea39d429c25e5aab1b5fc97ec880e736331814a3cdf799bfea718,
0x1e5d12fcc0c680824e0934a64153a1dedd491ec29effb629e35a45d889028343,
0x1ddc4b9d3159354a45944b963b54081d3584448192659625d3f06fa98181f43a,
0x11fc72e4994e6b2e99f8b58773a5eb8ab282dd06ef0607051371bada7b80c40a,
0x21bc7461e5160f2dc86d270fbc2c8f91605a49e5c75ac57c7ae3481bf1f4bb4f,
0x2d16510a22095aee95dac7335895a70e0ec56a9a9b33201d94b5f7cb6fc626b7,
0x2fdfb1134a1f54ad7dd904be3991e086e1b8e0c4d5c0eb80420da5c0fe4b0944,
0x28646d4e0061355d5cd936c08f7e8419701d959482990a46d4cbe164badafb26,
0x1dbb1b476c0fdd507664a1c03624038c2cf2232c87bea9e711fd32dc9150622,
0x81dbd4fdc8779da9472fc7c3dc8b35418c3f670643b4ec8e878c256f6cc22a4,
0x886cdaa0b431c97d8463419ac5651ff457a7c15673fb88916e94fa55f584d31,
0x2838331687e032e9ba3fff6492c1c547f685ebd7609536770c09dbd7ec3cd2de,
0x2621bc61696ec99cf22f64501b131655f498c95fed719edc34691e18154354e5,
0x2549d455daeaa01b7b52782493fe1b0b7c14dfb77087c9151b4ca36f15306ac9,
0xa4c236eb53846ff3488a5bcf59fe22252f78a20e953516f22c88b4c06e7f4a7,
0x10c077e94f0d3852b3e3c2b14eecba18c27b52cefd6fb1a1ff6a26ef95e41815,
0x2eb187c8e8b5d69de44971a4b370ae917ecdd0286b75560c1d3036ecc54b196b,
0xb395bd209a15083fb3a580abaa376a1fa397c54f91cf8a0c141ec7b4d7c1e97,
0x2a1aa4e24d835d8a3f9ead7881aa391fa930752f8c9c1a448d53307ff930d8bc,
0x1a3959bfaa6e5ec9fa45a9939b47676ed773b545d372e5f8403ce000528605ad,
0x31eea5b773a9e18aa6a29863ff6c51130f4e76974071207bbca7f238e4910e9,
0x109a8a86778d80cfdf86b4d6bbb1e57e218ab8fd8495f1fe051b576ff2e77c98,
0x361d334bf2e907948c05b6252bff7903afddc738f2952a0dc893b09fb034ecf,
0x11f636b7d7ee19603bd7eda90e668b7ecb2399750d002d9cd2978364b632ea0b,
0x23af2f1d6a7dbe734d6006377fe06a202a5482cdf7cf324bff2c3eef417e8d9e,
0x20057e0887d089856cd5bcdebb9e75b12474add58e57e3a77a26cb6cc36bb61c,
0x2657371dbdb26288e4a31975410dd5772003e2255a15e5419f11e97da00aa5e2,
0x149681e3e7671ece7381c6981fcfb46ec93264cc242f9a6140b3344aa641758d,
0x4483482a502545fce490d73674becc29dec91db3a6721869a92856252f5ebe3,
0x1afb1e247f5795105296f8f075ebc831ede8b5128e378bfc374343ee6f93197e,
0x23140be54f97f6d1cc5ba00847848e4fc973656baa56ab3e1b754cc12a296bbe,
0xae6ffce46e6c0bc0ce6341f9d308c792436f0a07142988a937db3fd8a333539,
0x129231c0dfad986f9c0c2f9868b00c22b314e22b24b55a438770b320ef193ea7,
0x1d62b56618a967c7d128e45a28062fe7f0bce6dc55083b58374ab6806e01573a,
0x17e3794052d48c4aa936c5e189fde01b8bb4607fd478b67fdbbcad3e8aa9166b,
0x24af4f43a91c5c51c6b2f3f44eca59bdc79ac86b06ca092cff9fc7d9c4691fb3,
0x215075ce41bd685be3c97d2bc28bec174421398024a8bbe4d9122008e6e027c1,
0x10ff29fe3e761d9f78518eb60b2a1daeb394753487490c9f5ef937df3b87699b,
0x160ff9e43a764ba2280d5ff675a9db049a29e7924f5ba24583b1d6d90caa0324,
0xad301157c28a1200715676e5ab5b2469fa39559c1a847f7787abf487d828055,
0x3409e3a83bbf52d16fef10fbbeebbb40ba299ef770e3640651a48602f13d108,
0xb1232364d87cdbc709442909811d0a0241d0d8b7933b59471799d6b30a58da4,
0x195dcc72dd9f2629db85af3e0c9a3ff52fed868038cb27103d9f30c8c70e1fbc,
0x192d2d9e31fb65b409ab273e7e2b050c1bff596ae56ca4687ff8e86ba8bc27af,
0x2ad9eedb67e8bf182bb967045b906afce866e00258a320380a709b818521bf3b,
0x2ddfe92956df2e751715ede80573cfa5308b46be5fd0f77def8a519f113a4107,
0x1ef0dac6020d7b376e6f0fa82187820a0a4d8be7a8effda342f7f8806565f2a8,
0xe4d6efe23c1496d8275f8a4dd536bf988a2c8ba2d2beba328f28606a4ca0f91,
0x185b30ee2d3a166f2f59a03c7ee9f206411f74f777873b92045b6c128ff84202,
0x19ea7d6275a6dd167757942770dac2861057e16a988d2e93e4f61849d8427aa4,
0x23c3b4f5e49e16ae69e639b956d48ad6ba696f243a669aab13ab2c2855e1187f,
0x29037d64b549d1c9ec4524ebbedb8069cb23218bef3cda811134b36d3551ddc7,
0x2ea8637b89b798a2f731d98f2ab89ae9814f18deaa7effcc9633fe829a9d109b,
0x2bb4bf36b15be77b7374a026352644b8e70b1ac9516eb87eba7672ecd03f1202,
0x1006f07533b6e5f33d613b89b858bb6616c18f8478f225af2f4e3d726780cea8,
0x1749f416df7b4f43257d9b8555e540bb0ad0d7c8ab0a4ae1296021da0d90ec59,
0x26c86b58437b04557a96cc74b511dbda00e9c4c57bb86c15d49bce318da8b592,
0x2679dc5e56ae1f6a54d38287c7ed606d0d9505a5cad5a0699b09041571c4560a,
0x133eab2d7a718f3f741eb10e973bc5e29a021e83f6442418a832b091bc2d6136,
0x1684a4b71cd72ec3cbee67151c638d5588e3705820c468c289c52e73d69a8fa0,
0x17cb936bca97a37f63732c01e6c40f6807360cdb73f62d792eb910e034b4041f,
0x1bf4b473f0c77aa5ac94a46972216b339d99c933a8f5034044b4b535adc388a7,
0x2c6b76a42a2fd9fc8105378de5176d60c2f8129cdcca89fa0b00f3edc64e079b,
0x2893d0cb426295edce9b5506b56a2b867eaf48b08c5242888ef79766f8d9aed2,
0x192d74bf58f3dfad901612983c6bcc753902e2241a371f9880e351150e68292b,
0x1bf69bb66db73ef6a0e04689e9698896ebed84d97966838113f5df5f5710736d,
0x1f8201a8020ba29e8521a1a0cd3bff50603daafaf084f0373f2edb68fee7308d,
0x2fc51d7afa548b449f40ee7c48386655db021f9e34e143c51b1382399bbf6e4c,
0x1f4e909114c65d62e1a1e466d4968ba9f6fa612578d474e25cc1ea13888f360f,
0x2957f8aa51d126b9961950fd72e1c7224668a359da4e5c0bf761d49913d147ec,
0x1a80f9577c8384aeb8889b63361078284ef552c62d2cc0880667e85f01d0333e,
0x1de416e08ad386d654b37fd2b61eadb5b555e0fec1b7b09d8435bee97e57b0e1,
0x1ba2ce3d6e352d0643b2d3c5c7c023b6d1777f246278cfe6e1654e9e5413b535]
".
(** constants.go:1548-1734 *)
Definition txtC_14 : string := "[
0x304c29aeb6f1873847879576d30f1f6e8a3ce41082c15c7632df920d6db5164d,
0x2b7380d8b25bca649b3f8bbd0a86ae417109069be27066f46fdd1c7c87d4c40c,
0x4c77200e5494b1cb8a3d334f69ae5bafa7e8775ba1924e563efe591eff302f7,
0x6c0b8966df93080c3ac1576486e61ab0d027637aac41bb35e482bfa10e34fc5,
0x24c73f425903904f40dbff590225f251ce1980a5a5ce2d07ae436e1d090778d7,
0x23df6f6f4448273c745ce53d5d7abb5d26c46724a58d68844d3c3ee45e9b924b,
0x1dc1b1ac389280188e937566071b84bf8189b955d0579b6de5ea8a5136bc2ee9,
0x27f71c5ca774ce20028b8140f144472043917cd4919cff64d848a745bd569180,
0x22b2ee53b302ba2e836b98783e15eb6de9d15a72cc7caa374e61b51dd0d2e2c7,
0x254d85065f87271e86d7b411d6acc280f9ed257c098c9fdb04a2ca4df7c7d766,
0x28620793f378bfe881e098bd2ec62beb46899f37a54abd053cfb0b3bb8d5e754,
0x2c19f26d0836635b04f38fa30ee5c648fa0ea1b202eb0846821acd3c699cf061,
0xf9ed87e9a1ba7ee7c28bfd7ac38ff3ba10849fb04d3322898ba9fe0104fb445,
0xd1deff42263b7cae8a123a1641b7258015476161ab881e1dc20e165b3f04579,
0x1ad882b228b5f22b9f6a02e10ba09049c9281b32ad71818502b66ac77ee3ac6,
0x1822ba8c558e0e6bd0efd1ab4b45129879e43b7a6acf07579b1e6343c531a248,
0x192c005d746c0d045f5530f10f38a29b50cb6c86039410e634d25a809203f492,
0x2e9e6de4e745193d2eb8b89b5b573eddf8a6506746afb98a2db858134acd808d,
0x13373a062c71d0754ee8b1872dd2861bd4c2545e807dddc654d68af43ae87f0,
0x130c94f39a9a07d71dac7df61fb56cb975c9092ac2ab73b113b341e8198eab08,
0x1934eeb7210877c3c2e07d9ace7b72ab4d659bb1431f8e8ae79a1a5e8daff5ee,
0x22547365b9069f419ae8b9370816f030a387cf0ce6b88fdc54fce91c485dcdf1,
0x108b2099b7264eec50ebab5ccd3558a359e34fca1cfb69df4e3f8c9da9faaa73,
0x22b946f1886cee07fb01b7f8e3bc585ea8f9a7fcdb2aaec5faa878f378eb200e,
0x229337b2b316c279097644d8fa861e5e5c07377cbe3ba168b55613542874681,
0xe9283cb85fa800120344cab9a7f792e975f5c25d64f5cb6a521b62665af7451,
0x112956bf9c763ec101af9a335159df07d1b0bd90bc84be291aff9a85f30f5163,
0x26f27df4fdaf33f3d12d5948690653ad1ee625cb00aef92b73527d37365c4726,
0x2ed4c4b73e2547622bb78403cd983c6f1d33b25534127e98a7472897a84e4b3a,
0x9f0108ead7dd31504de2b846076a8019827086a0c4dd6570c1b7423ca05b0cd,
0x1172c6ec16cc502fbc633f8a4c308b14551d2c4822b5918179946e6545e9de5f,
0x26488ee5f0d4f8b5766c5b8cbf414970b750e7488aa316976dff5ab72f349f1a,
0x392aecd00da38bf4e39fb198ef96e70bb8774b8152970dd2e1629b51ff10ae5,
0x2f6d971cd5f9931144acd9b9e98bad6e1e78d60cbd966fb18e6f630a76dfa6b6,
0x5a795d1230d3c781b9717735bf45464f36c41df07376364986d0fd12c8317cc,
0x1e238a362ffe560b31e3b050539e6c8fe0da221fba18b12ad661945e22e5f5b9,
0x35fbe3e0d9d9276c990a3b1719e27550545a077f6215eacb2479af1b3686364,
0x7ed14110e9abeb3520e14682efad791ad5c2feb51d558ed013675289b1c6bdc,
0x11dad822671724ee6a786e210e9536e0ada0796d4aa0fced69c1d411e11e0c06,
0x110b32907aac869005443ad66a33ce28508c925f505e44a34b53f70a3aa45385,
0x55a8f4be4acd26e362a4dbadf39c198b43ea025ec429df6b2011177dd8e6cfa,
0x1bce99ccd0f37478be3ecc5b67ec7c0a84b03f7231630dffa5e16ce6f90d6bae,
0x1d61595a714a5f1b32a5255dd5522d633a0ebf7fdf82a9cfb22271cc962c801f,
0xde4fba8ef10768324aa1e91e606f2a3c3f3f6a29dc8d31bf7a670d31695bf02,
0xeeaf11740f270654239779cb83a05182d0c98f3d4bb8a7a118ce4c0de477e3d,
0x25c397489e65820a955d6284c002427a1784233faa7089c6677f103d2fafdb7c,
0xeb3a160356c8929495bd9f58d3a8657f69f3eecab1517123e724a946dc50c4,
0x19122ffd9b6430a6f6c81cac0bfc8b488e1a28758e9407fdef8f77aa1fe4c0ee,
0x770ca4c67aa40a1659365097ddb70eeed6d6230739265f76786cbea0899e823,
0x20cf3df7dbbf47bb220ccaf0ecd8f3d54e0575628a7291a72cf8db5e42e1498b,
0x21fe2c9c9625d66a931fa931bf7fbea6c2808ffd7d07fd3bde15775957c62768,
0x2ad158bb675ff14b1dcddc993d9d60a5b4e9f3648afbdb5bebb2cd9a98ccb881,
0xf89c7c34499d981c6cc376c6fbeafc88b7ddf87515dfec65da9bbcdcd68eaef,
0xd6f33ac650e35d3d642aa3fd35912fdfe5014b86cd11e8a8321794b9a9c2992,
0x9cdcd7858f273636fc033c778e5f588b9fe6315476254f17aa602c20065caac,
0x2bc68e029d800355300648a36fd8a24157750a0d6fb2f2303906451f3b3d9820,
0x163f8a2427805d02620c54bc1d32186ee3d07dac41d9289e9aa3dd2cad337601,
0x2b72cb042e079dee8d56b1762d0052790105395fa0299e79cc72f4c27bfa20f4,
0x1aa578a5ee2c66ab8299fe99133089e90676c4a2e6d56cb9da0679fff6cbdcfd,
0x262d1529ab1e7f58925030e6caf0e79a14c436e5926e33cd79d321388b966dfa,
0x1aa6b71c17be336b1b1cf2384d6d3ee0a7ece1ad2003ca727f636bd4b70617a5,
0x286a8a2c71f53994524a189eb5bf41eed57904d91f44eee40976778362547af3,
0x37ade52ed2960d80bc2d92b815a5315883cd42d26709ae64a822ff92ff373e4,
0xd641f097ab6260b2dc240a85b7799541f6e73a3a25649ce98b4b64a6c499dcd,
0x1176510cc674b0f0caab00f4e9be1f8c6efbac7b7315ff6d4169184b8ef009bb,
0x29b6783918f37a8015d122ab39713848ca84008abaa716882b0492c6ccd15642,
0x28a8be58f110dd8c2b90428fb4feb59b67eff815e928fb7d75747d35cbc40ebd,
0x183f2632e3ca6ec2377e8358c3205d23f9211b759f62fcabc5fb2314d0728a9a,
0x6aeb9e100b47eacc2dacdeca2ea990f7066a79e2c7c83f2490bdab3eb43620a,
0x212949467cdd807e8f3576d403fef09e9bb63ca3754897541c6cd77de4ceedae,
0x1858f747bddf594d663ca49fd2aab93402ff9d186cb230a025d53b8d4c626e70,
0x19a293adeb09485ccc03800b821707060dc27e8663e355e908e368e2e8bc0150,
0x1d4241ed038279263a184eb3aab7f2e14326b7faf040a48628ce8a38c7b0abf8,
0x1692838188071f73ff82734223e5999c726b055dd19bb5a68e513d57055d8bbf,
0x81d819dda57265e88fb9eb5f7454ae7dcde39a14b00f45cdb19406e8bf24efb,
0x1fa7ad5a2bc799dfa38a9c581b0d17990d1f53a145e26e7b10a0901a9dfbe8aa,
0x140107d97554b55ec285011aa53f372689e16d68abd763cdffabf8718bcc77d7,
0x1aa6e52c05aa7d40dce61bc38b038a69bb36490d2014dacf4fa46e71be012ad6,
0x233c7ba71f9e0ca09ec20277fe09a96399a1474e4dca5158e97536892de72b56,
0x223709deb8827076f29c20778d24a2006fab590092c7bb34f212c331b4b1b932,
0x14187c4e94d059b6565591e16dfe2cea40731d582c1487e3efbe1cf305a9b459,
0x12d57f9c3775b0509f5c95f1cc2e17f1264a5121afa6355611de2a71ee23d803,
0x23ba06ba8305823e5e62cac1ed25888b6234f13294c93e1d36d5f2f73c8b613e,
0x9018322b8f274623a4ef0562223a166c0fca597d4527ae8fbcdf297c8f6d1c7,
0x1a8d0fc5616edc0238e5287d9fb6869468a83ac168452c5cf3f9a4063452f22,
0x2b1a8db9aa3b060be428900b352808a1821e9c9f34f8c8e75b172def7f0b3d07,
0x14e78cb6524a7125d7718d49dd76525f58cf2739ab9cbb0d408dcf2e12f604d0,
0x1208b734f978bdae45714bfb76d3fa83c558d0976e9c9a1fa93a1fa69f7bead,
0x26cb6b7c1d65f9e5b5235c3f31f9d7ff1d817e4b5b945fac94a99b3cffac3d5a,
0x11344656431a0d87de96e6806fc0abb9e1514cdf175d617b70008b1cdfa7fb17,
0x28180778e94d900df231aa7e551f6d7207f3344f5b4164d19ad4627e53aade25,
0x1497cc0587aa9a662cb2e9bb2ae6bf3e75a0716db37ff072d6c5cce6ffa65277,
0x1155b889f1798c1b597cdf4ea98b7a22e2291aa2f49d4628179115ad19817a1f,
0x136bcfc49ef4ecf9c613bfeface129644a00a283c8e9567c0b0149ed7d7e0268,
0x2c94ea318df6e3131d85a4681682551ce652db2f76ff670212c5375994d2da9b,
0x11a008577edb87e5285159e1655d70b5f6ad4abbf3f8f19d66ee1a7172623cce,
0x14262b879f58b553126cc175743b09b5deacf5aed297fe3e4124417ed2016a99,
0x338d86b8e84fe8bd613d57a3a713ac1e971d52a586e94106b49d7d390c92658,
0x1ad169875101e162c49ec27ec32be37ae3d379f347930fbb656d718b87c14c36,
0x1e33654824c915e16fad4a166ee216d1b3a36428d90443dc9131f818df850f6e,
0x23d15701d8f5da053866a07f4788c49476c5518c8a812295dee3aa1074db6d9d,
0x2d2fba372de705aa005c21db4d71bba12c9d47dd0161bcd45409c883423948ec,
0x168371dfb98b380fa2d2630c612f8613042e6df90658c2350b270eece90d67d,
0x412112ecd0cac61c445ce46a8518b56e0f2baf839488591ead4aaced85fa01f,
0x23ad0edb1f4fe974eef543fc17fcd7dc1a0f05e2ce5ac18e374c87bc09f75c78,
0xed6be3eeb0b9147d7c509a9dab4ba2d57c7b9d4b2780fb0515525fea4278eb8,
0x690d08198823c10f51a7ea3cb473a6d98ed0cff6a17069b50971a68567a7b11,
0xbf5caee488cee887f67db3206cd5da24ecd1baa6badb44bc761757e2137ce3a,
0x3dc319068295544dd33221944b9e285f7219f85e8855975c48f69f77edf0a17,
0x164c0f9fd358e2a011e55931b51e5654352bb6fdc6cb2dfa4d8a75722f2621cc,
0x7e8978e88b1c0789e9397e09c9eb10e368fce8724ca948f6f2ac92cf230e6ea,
0x22c5462508c480867b3cd96e18dc3c42ffd90e1586ca41fa67158838cdf1593,
0x922b97a92d6a11fb18178d05f054345b43db4f5c6b91c73e28f6ce3a22dec5,
0x17626303d1bda8e47dd6d0da342e4327eae6c4200525217a20f6226cb54bd44e,
0x16ed2d702c6f848039b31ff87fb1daaf88b23f6b00acd7f6409a7cdef83b5ae3,
0x1d9552a42def1750b55d27edb09ce26409f8f89050fb74cc53072f788feca6c9,
0x93f2eac6c08b0a43d4df37c1b20d1965c77103de2e6dd88862f77b322a32dd3,
0x63648259abf1b9feb8c0b03db31f559e47f0e11de2b371b299043914d0ebda0,
0xa8db8ae7570818bd9ce7c02dce89712cfc04f800d55f1562eb1ed27da9deaef,
0x2addd8a7fa94a011e12910a98b2b8ae5387701242ee2281df132f9e9dd3fc7c6,
0x82532cbc9a72e056668946fab08eac4817547cf26ef3eb8f159e76f9023dea7,
0x2abcba0aaec141d7742c0f0785daa2726200b6ae69d464e849afd70465c9b557,
0x113ac02d59778ac96902e3fdd0562c504b418cf8a8e349da7d61450a2fc6d685,
0x193a7f639d4ce4d62dc7567ee718853f5c5284ba09de428fdf02846ee22331aa,
0x76d49b5c0dc78dd9c8e7ccc9b5a35df69dce86805aa47fe3f8cf062e47e95cf,
0x23051faea37aac8e12ae94b87a02411747b14de73751aa1a3f6a07fee98695e4,
0x2c3a84859c46bedc24120441bb6dfb113c09dc8070b2e0cd139ed49c9647b737,
0x165df45e8460cb7b423a9468d2935c14c93c33c700c654e32c2e6743de59deb,
0x243c1dcf2e801df1b53ab72ad31fc24cccb07b2518594c4e5f3024da67121454,
0x2d4f07748851869bc581212b431c20cb3e268cb7f6aef272deaef66e929bd859,
0x1445dd9248e8bfa4e6698e7f51553ef1a152d37d88949e15b9c50c3e8074aca7,
0x3f3128f5fceea223432d31ceae2f8b11b38a15ca9c3fce21cb8756e8e09642,
0xe574b6201e927e5f369a966151ddfc5c06fad66e64d5e09702ef172b5ade467,
0x784b51a7ae1076c1737eae2fc4c3bdbc2187b28f714e56cdde0cd322292aa4c,
0x289012d3d1fb3419e3fa81294f3a64c15685ffaa658927c09c1833ce59ce5ff7,
0x2bcf3e35ab8919e05d55166908beca23a711c712284c45695c6558e0e3da22f3,
0x3df5cdc10feafd361d978330cb95515bc2e587e7dbb89da4ecac57461b75b6d,
0x19dc65b4afbaa8127015b3f68d35b557c8fac9938dee95ae35ea12da61b7dcd0,
0x1fa279d539fc9bf724da2e7622bc326f9535d00adc596916791d77d03bf016c8,
0x237dd96ce03469858cabff18944f05521971d1ad373ed6e041987754dbfcec17,
0x31261638cc3762eb025a716ad3bcf1d6447a080f3ccc60f8117315254f568d4,
0x24fb403026e10160607af2e0a214aa725637f19af7ed44130a9400365bf61a7,
0xa773f9bbec6c35b5d7a95005477796366c4f36ca634e94b283233afff57521a,
0x2ff29b7dd04750f926b880f54acc39f2e828852f40698afac2661b3053278580,
0x1555a820b4069893e6625d113049c46bc5b4394d627c2668adccd3ac0c6492e8,
0x2a5d25cf71c81e5b129e7d37a5e2728dad5d99d3109d23a18c4627b4afcf8fd0,
0xd749c5dedcefb1910ec9450ab388da7aeb25adc78cd029a75bcec29559e8d51,
0x2134979a55dad645ef838322058e7bc8ede30969481ff2bbe496d8ccd6aa8ca5,
0x1a5d28f1ec79a8a70d8cfb783cff4c2b96e4ce5beb97665a0f6a52e73a70bb6b,
0x2248fef1cc977b18bf5051a571374c36cad0b338bae217bcd9cff038fcd7bc57,
0x1a3105c3234d4afbc112d7a9f38d22206c0a1e77112d6ac26c6d6aa63ef50088,
0x6ff45e6cf264bdcb9e8b3b4f13a44d1c197ad77ee53d02fabd0c0a78ddf6ae4,
0x7ea34caf7f9c9734f489953d428cad95bf98cd32d5c18e5b51e01d1444b8f91,
0xbb9bd4ea562fa887d4e6723a798e7641a08dbb42cd72852b8002a86c57f1f92,
0xbe1e28fd888e42fad37e72eaf884f6c6c5d037afc0957bc9ebb4893e4ca121d,
0x1de8955b5f752e29e7e7d92d6345da11bcf32937a8c2abc93c497d1affaed055,
0x140faed032e51900fe203d8d32fa61d9842d6b7283864ceb9a4d1857d6a9cb5e,
0x653a45ace7457b472ead1b3438668c57d36faf59e2a19134756356ce5cbe131,
0x6d23369e024dfc31a1e36cd9114fb7892316dc57da6613ecc41ca0849a1a7e5,
0x106a234f7e4c5d097cf00f256609b029de983d04044a66023d477897b91adb19,
0xd5907c353b674540c20db872cd6e0de8bd66f9b3d691396aa06678b5a9b8bd4,
0x1c8cc4858cdcd5f36aebcebb9cf185feba809a92308ff5f63b66c2b1f52dd14e,
0x18709a5ed55ee4f8614ff04e503872021e88f83d488d8a0567597b60e8cdb3f7,
0x20573eb7a426d39fdcd5f46fa19973e6be531160e75ae9401b99ddd7e2ac25c5,
0x1b68b1cebbf59b96e23aec11f075769b54ac1e7de44ff13708fab5a9bfe17719,
0x1e74628fd280b451eae0d00add965f95bf19fba43425c3c0589207782f702b7d,
0x1adf6672bbada9f83494ca2bab97f2e90f630525f9c68338ba4b34ccc484b478,
0x6ba3daddf68d283a85f65a0ac15913461a7ac09a320e394d09aa5ae97a50db4,
0x23613483e811cacaf27820d0a9ca552ad22ab29d4f1d579f10bfebd39f14ee66,
0x5ba1370283ba319cf17f631a9291fce5e0e682ec1d01bd6df2843528e363db7,
0x130a1c1a83e91a21cb376e0df81b196d8c229ec60df85a30bce4ca8f466fc589,
0x2ad745158e0bd5aed17084d5fe12d671b0829a83392e6dd0a90a1c0292eca0,
0x1a4703eca8fec84cd8234d5fc467737761e6d2d6bb6d502a40e25f94044e0aef,
0x17eeda53608b4be7d2c9b6664dd8fc672bd48641e29f6402bf55443c667bab4a,
0x1af9e7886090fcbbe73d9b70b729ee9f8a384c4862626ea685673b4837ae2627,
0x2c300d04412f79e15c95dfd44889ef4a7df828c6b32776db3797c674fccb5fda,
0xf617c15c41c424a39aa8a1601c5ca44207b3c6e44b003bc13179fa7afb8232a,
0x280e6721e233a91f7f26004f753a82aa3403fbd9ff420411c058ef275fb54295,
0x391c3b4c6aad3203ef3e9d7d217d4b77ff1fdd8c63a9fecbe5e702d51c53f23,
0x203f9c14aedd6319d3ec84ed7517d5fc4703aa085f45f590e86504213b17fb6b,
0x10842bd57c470e718b75553ddf18278b60594ad3bd7fe120bc46cb0fb450d424,
0x30250c77a64030f322e0fce46eb9783655a93645784b5219c09eb0ccf3fe88a8]

".
(** constants.go:1735-1918 *)
Definition txtC_15 : string := "[
0x148d9e4542066b125da6d69ff3fb676ebd27e6a38a1ff4281bd639c97af6ffd5,
0xb60a28805324295fcaf51bb88d9692372cbf4eef1cba8b85cbc059346691a88,
0x2d38f812ad1d7ac79c32fdd57a56edb861885f20fa4bc6d0d942c2f41e8e4a7d,
0x25738acd1163580033367fd8f1ee199d7eb3c37891e06bc20e6b476a0357588b,
0x247f6967fca42689ae8e20b5a7a198d63086549b78c1620a51f5d36824ccf43d,
0x2e22813077a668b2b75249b8d515a3dcd93502006694245bb087ff0732708b93,
0x1523ea89be61be47e1c36b0e024068c28c48da74bf7069ab2d77389c83d474f4,
0x146695ce138230e087b53ef1bf81601f2591dd344a7cb509f138939369e0d1c3,
0x12d05d9571fa4b4171886d9c2cd44c7d7fc5a4125195e7d28c3c47cb5cb5b7c5,
0x242721147084d4613543788977111f3fde6c89326a556e35bccd2a2e73cac68b,
0xfd921ba8395a5dde833e6dba4173385007b38d1af5e3841a345c9a480c9d292,
0xf0bbdc7a39e5146929f2e1ca9fb4a63550cea8f12109c1d82e601975d581f5d,
0xd65008588b2ee1a4dee0313b6d4396952d901385f2e1afe6a0a0def765dc2,
0xaea567be31e1c42ce33f589d903363a482f21c1c3d8fe50fa6df018a2dc7c25,
0x2fa334757b03dec6be1df758ebe0353317b35316ecfc72934d069f182346bbd,
0x2180dd9f972b1eb5e8819a843d24f650e8257e7a8ccf6eef3fa3d744b16f073a,
0x1787a3fd66cb49328100d3574d7070199a6bb88b84df6e9b44afce9798233c4f,
0xfbf506b6714d64dc8623fc0cf426f918053ae81e5847d3367ae7df02293da8,
0x14f57bdb3ddc75b65eb0720e27daa09412b30ecf7b115e8162b9e55faf49f5bd,
0xdab0bef8d2d1adc80dcca581e1891ed800bbf4153eed15ce71ee5e0b0bf940a,
0x25f6be3a9c5f2a6ff32087b2caa01b3a1b7909811f025196f156319239d359ac,
0x25b541b96923b17550e137a4a5bc0d544d00c5da7715c6f00bdffb9bc56d0dc7,
0x2b4ad0860f8c3c432f2a037b0e2f7da7a4a5b3601044ba24a56b5b9a3dbda40e,
0x7d5817bd123f90a4a3c2d77528fd9366321d8dc69988458cc425581c9643af3,
0x13fda3b1d02a53b106c4ba4652cd90f466b97acfd136c9a8431f1dce531aa443,
0x2450fd6b1a17be1ec4638786bd3fca4cca4cd871268eb07b1e5aeeade36fcb44,
0x1c0753ebf63794a29dfd83eb0d0e76f6d1ead583f72f64c0be39aef9e577a0a1,
0xf110dc007ad810c0fae508899bed20aa5cc8dc3d8324f0f7bbc3995119daf8c,
0x30623c2f24a7c6ab307f0e88488a009922fc2b8235fc741526a4d3e6a59228af,
0x1d895817e78f2f1f18e53130a6ed8bd6e1d189543380f691a969483f0ae3148c,
0x3abf174d2075102797f61660105cf418ded1fab324bae35d136b17a0254c01d,
0x237478172f073d15dba9d12cae6433ee71521ac294b54d78eace7dc941b2f82e,
0x180f820a7408dee73a72ac02f7dcc75f99a2b9f75a9aab82377d373eddca712d,
0x2a5ebba744ea7a6e8210f483f0b6b61c1feecaa867c8c11aea0488b822772614,
0x2282d8326c3c12e0f7575e1acc4bd941893732e1e7d3c0bcddd35e366edd5f7e,
0xeb67d8e687cb2cba01552ecfd4fd7ffc3d5788cb47aa3887a1f2ec3beeb08f3,
0x176f406cc04bbcc4bbb82c56e4ec20bceea588f1bef8fd757e1e58d47545b77f,
0x1c4d0cec6c8b22be0f1a3e9e32705a8a221d887ea0bee1bea1a8226608905658,
0x1e35dec79f5a579a42f82c45b1a191147bcc4e3fd02f45af412eddae08db4ad9,
0x75c4a33b1289f7923abb46d7a684eeda712004f974ef5715f4e2b504397e9bf,
0x2f416c15f901818152911089ce2a96018e79a8fb7f311c4c6a4d9ee9f7d8a83e,
0x7a92367d210292658449ef3d46ec96b982c3448053bffc8d27b17a643f43979,
0x168799e51ef2e7c7b435a220052e06295f6c08b1e6b0b5122aba31e2d953e44f,
0x2c422cb4040ce223ae9c21dd7331896b68704c26a8f4ddc877bd0659e75c8c48,
0x29966fed42c09b35591edb4cac0574441dfcfd4f52bf0cc31b2e624b7eac280a,
0x26ddc145a94457eaf0283876d4ea7d6bf10b7827bf3a684afb10fac1d172894e,
0x13a8a30590a2c5d476f60d9e9ea7a4c1783a5fea077af03299b8c389641bf4c2,
0x21d12e7122c437251656760882eef8f3168c237646f3a58a51c265d8b45184f6,
0x271a6257306b4337cceea57039d404e1996058c68e71d63ce1329810af2da4ee,
0x1980478607e68ab7961860e38dc78da21f2e453f89acdf82ea62ad9295d8f625,
0x260653cfe0ebc0562b54b9599ba00669da343a3cb3a14c64f86149d8510df8aa,
0x2c4fd7be2751f8b6129d997351088081e60585ff012498424b526483f8372f98,
0x640c9db6f458697dfe17610b0692908cc7f72c1c0bf5cff33168c4867c22a0e,
0x925e62b7772164055008f8765b827f251b006f2dd2370535df1a16e872b923c,
0xaf4d8cd74eaebbf7a29bceedd1dcf0ab0d00f8de6442bb8626e7f04b043f40e,
0xcf6a34e2cd376d6b000d8b0a5ed004e7cfcad8987f3650095f4d9740afda335,
0x1e75dc69b7b94f915b925a773280b9b3a2341ab9069eb87c883ac87da102d9e7,
0x26bd58259c27facfca63e248ab6a130ea9893b53928f3d373a0a197c5c2737e6,
0x1511b6c19aef08f6e79cbc7282cf4b5d3eb07aad10b9f5d65e005e5433db1130,
0x26d816f8378615ea31b08673baef673c5151c036a5a34ff11cc0ceaffe4ad982,
0x1c38d60817c3a646a15d82ede53a8ef821ffbeb2b16c8feabd6fa7ed02e65c2a,
0x2ab192357923d1198143414d448648ba1f60a917f4806bbc2a4ad3b2617ecbc7,
0x2920a902ac2c11523c9425ea2fcf9cf430b6e27c0ae9f587dc9bbbeb96536352,
0xd4e9bfdc6f8dc1a6ee5aba8e5f9f67ef3b83a526012953a99c83edb0ae1994b,
0x295bf676ef95ef309c1d3f8dedef57582ec317807a72ec10674adcd1b79a1717,
0x232180e854fede1a3359dc8f1a5e14c3ae7b5186fbb1a3f6a6fd9f5252351812,
0x2405a43f35d247ffb75de7586ba2287f9b057bb321bd9ce9bed8c89807d67979,
0x18931b27ff3a9e92903717b2eedae0dfdf33e9cb5f0fb10a35bfa8f3badbcdc2,
0x1fd6e10af1b3189d42548c7ccb93749c4146adf3997b8d377c095445d90af092,
0xc4772ff9abefc798f553554cc392284b2a8ac4b043708c183f18bdf6d69be41,
0x227fd4734e7471641aacf664825d3b15ee10d0283c2dc35364c9b167ccecaad7,
0x132faeaa250b60ef57f7e0ae17f1799fc9530ba5e6f2baadaf01b089595df9df,
0x1fe24af9ab6246e0c85104cc31ba59175c60b155647623f893718608efa2047e,
0x2f376b18215290f25c3fb987cc89569a3f18ac443fff16989678e205871becb2,
0x2f2fc0ee912aa02875b096e48336411eeeca6f3de85152f51038ca291bc0cb18,
0x2cad38124d882410c386b4eb1445ffe1c73f7b789a273a9cd266bc232e4c68b0,
0x52002de9c04553df4716c46a80102ed453be8d5bfd9b2f0ec7c1d3002a7e7b2,
0x302d680ad3444e026b06cd6e4bf62cf7df234ff9e5a46c48c17c2937507cfccb,
0x2b3a9dccd38768197abc3b4cb640ab3c01206f49add14d1d705c371c7f705afe,
0x96a6e47d4345707b5c25e86c8a690268f5e831e6df4d864e1f3fa90f2d8537c,
0x2e2b005a0a54d0fefacdc8c153e84f5cbb50ebca105fa0f0242343fc4893783c,
0x11c8ac2a7f796c7852e23e76cdb576cdf35bdaba6918f90cbfe7aa2265554a95,
0x2c2e66451aadb830f1c91d8554f2e39e4ee19b15709052851f481629bbf12b91,
0xdb078c9e2f68eb7d8f869554da434b9576f186dd943b1f586b9be61a172f960,
0x79328f87f73198430e17dcd7613bf651afdc86b514295f7c238d2f267618abd,
0x57924e8f3e798044d6591af796b74ce96bfeb676de3313eb50e0810136b8b09,
0x1730b8bb9dd03d8326981225e8e51fb9237e4c03fbdde5f0ee12004339b6b9a5,
0xd121b54def21112d91a5bc9fed5249f5dfbde7c63bf2aa63d14cb59b0dccefb,
0x13924c1b5bbe6d5c01944d682370c13cfdfd90f17b55f07b05860713ba9457bf,
0x1cfaf7ae08968c76279003598eb1f7eb6b76ca3efbaa873f21e3e0ebaa637ce2,
0x20908d07c87e65c8c66ae29d2ef20f8b8049e304a818e769a3c3c63ee4eee0d2,
0xd225f408959d91768201fdc03575a68e7a855939852c02cf64e3348fb383d42,
0x112785d72b09b749a03120b3ed7cf793a99ce5710afd2f07d1eeb39974f03340,
0x2dc01fd745f8ec43d61a5b355b459750010ec7e6b4a13acdcca627d7f6f6babf,
0x16f35ad4dc8075f6c173b9588be33839ad67fa5883783b0ae6f0601de726afa4,
0x1bbc143e6c93e6741dae37037285fa42ef8dae0d6fe3728b9e92e79ea566b277,
0xdf7e17da597a37884ec03429b49764d9e8cda46fd656a122f8c61d9123d4aba,
0xd73b0c0a745dd49bcddd632d4e41f57b39c28db722520c24cb3d9ced0d8ab33,
0x263f950c95141a28873f4ecc0d18c82b89f60e7042cb3e9f128cfc5f03e38580,
0x195e19715160d996ce7464f95db19bec2c71c02faba0f2c6c5ce0ad748fd3d3c,
0x1cee7204151b6a47ab8ceffea244d1928621fe2661b5c095d1cc24c1a6579693,
0x29d7696ce5bb66f2bea6d55ccec4dbd464298d8018135f734d115430cc82c42d,
0x26c47c18b71c8e81dd025369e12e24ccdfcec6cab974c0f86da98deedeacedc9,
0xfac9631760c0b7f0824bf81492797db8cb3f5e4918040c4af17a4c042b116e0,
0x7e7ea789ab2f31184f5a93820b08a4f6bddf02fe83f7c42a6af69a6328de863,
0x20eb37fc65efcf8d87ab26c7cbd24ce2b597e7d9a73fb6f2b9db3e0775534bc0,
0x20f4028b63bdfeba4e2dad61f4232d2a584560aeb71bdc2f6c3929a7600d64aa,
0x60e204b7c08f1784b366a37a86d0d8d90c386989cd167fcfabc8c2741aef9cd,
0x408cadd2b0c8fc39ccbe8366e16edee16ef6fcb00bca0b843681ed56a6784f,
0x1722aea32703f506f24c5551e3b591dd24fc4ab9d188c149fd1b75e7b90dd353,
0x2b056ea316811928d984e2796d56842e444501dbaa8cdcb546af5de36364f4e3,
0x276f12a02aa48133e660f6e93ceecfa60a529dbb444a4553824b981e3396d169,
0x1199c8941c5f8f8ed0cb67c02c5e014364ad7f708222ef17e82378e4c155a8cb,
0x28a3d2a547967bbd877ebb18ed238e91706b259a1723c1e345de5b545b8a943f,
0x244dde50ec65e0e66cc3bc269ca9689e25a89c5269a4b7fd5137e9ab6b7b1be3,
0x18dd271a54f6e5ac3aa02025470b4612c9044be00c51b80e347938a528fa9d70,
0x218e424622d7d41f3362cf743106e890d8d2108695e25d279a2e88beba3db8a2,
0x1f05c5f5041b178a54143a02e8850a9e94625955af047d9e658e7cde580fcd4c,
0x191da8c6357930716bc0fc614b80b71ea6b2540d14bcbfcf251086764f3f6e7f,
0xd54bfbbf8a8cf7c99b0aa8e6a688b964e50e68f2de8ce26038e155ac0632fdc,
0x22e1e8bb2d7d1216a9814ff5454f064d67a9c56e4bebf7700cfa1b651decf8ef,
0x1f0fa78dc7e2300fa36abd2a40c858fc10ae1455bc43695d121c187a26dfe7c3,
0x151c8de5c4d6b41254130c6977f790f13b73f6fe786f47d32d6a0e098dc8ca10,
0x191451e550240b9f0f15a5f0ebbb360ea9b98c6730e1097fdf6b7b8028266433,
0x88c58a21c4ac05f1169de675c2c543cdd22bc1dd06c42fcc4eb890bf0e518c6,
0x1e431a01a34cf72247817b3c5684f042878c6d8f67ebeddd047773744bccdcf3,
0x8a6ad0a360a0f2558f78abb268a4c7dce19ccecf989a34ad2abbcea4f50986e,
0x2fa7d3a514d879b93b93049fe276e60716c547d4f290126c15e8b666224acfa3,
0x2f352d9675da8d7c81494e015133a5b8b4c62020898be4468de2fd81a4c2cef8,
0xf6ebe0388d424da0c79ac329f4b571cc3fd8d5bae54d596e6382da769c4fa6b,
0x1fe4cb5bb70a9da24e0f598396e434beba5ed2e9ad539951dc93a38c37fe3fb6,
0x29f316d8c7f3c8e7929d30849ba99edf66e61a2d414e6960081d0114f45c07bf,
0x4febefaae3e20b5358213eef06d52c7b7817a4e5bd8db4902d2ffde8868564e,
0x4d6b864cd130aef3a066bace271902047aa0564eb05701efaf55d1f218eecb2,
0x159747ffd019c389e54acb68074802edf33332662d5dbbba9b67a3c21dbed46c,
0x2116bfbf5067716afcba7419b07b3315f0ee9c8ddb034a6e6b5fd2e78793ef3b,
0x2ba76cc7a25af15695fadb8fd7d436d91635eb3f251b2b46dc317c8f5060c4c4,
0x238465fd273e538d938139210520a07f2ce3bdf50e381959486dbfd4dd0b35c,
0x5c340a5328ed50d2b10d24af11e763ccf9d30906e5bfdc2a0f23fa8f23edecf,
0x279ab61cfe4f25485cea4bb3491598d816d5734e391bd1a3edcbbfee0da1c6ba,
0x76e2fbd39d4fab2ad6de8d53e70194771528f4ca4018fc56c68b85f041568d3,
0x75cf8404428a1a38f04accf51f5ea6a7f7d7cf66ee412149c23bf4c4e61fad2,
0x1b45baff5397fea5757900b2499c0aa66447e5e6372253457b9d2472dfc8622b,
0x1a39fbeff40b73bbfff7232c26d92db4afe3286cff840d193b4256a66432b09c,
0x1a4d4e0e68afaa99c0890c322d58e46ebfdfc24808688b64fd23ddef4e70c7f0,
0x24d619da14e5505a0466ebd24a766f2af1fcc6fe2dc4bb58440f618d8c57a7ab,
0x274442dd02cb4d494bb38c28a42fc02494ab3eae56e115cb3c65ae4aa728716b,
0x26a9f2469481a594f9b546553c12df66c0fdd4b4637370cbe695cab374f5f115,
0x19b6db087b1cc1c4b765e70274236d981d5b022a6cf0d3aabd478eda2f895894,
0x231b94b5e1f8eda3405c1a9a05024fbb79f8722847c8c4dba6af33b0b5e8d072,
0x276a571b8b2cf637ae48734c01c30a91890729cb137862d09b0dee2f255c5681,
0x63d0dc1ce85c55433a780bc6ac9fa8bf4511ce6c37a121b6712cd8905787751,
0x1b5766499bbbe4410e990a078a5ee8d6ad5c4ba9d0468a056c10e0df4f3af63c,
0x121b65097837a750d24e9dca2ca61b8ef80e1ef478c3d4f1cbff64d4256da110,
0x155bdd180e1446723320311ebf6ce1668158921dec0c5d9496888eef28fa8396,
0x2c8541d4945a6610c164b4a4546b2f3b9bbf6dc9316b5658927b635d8bab8589,
0x34a08d31b52da90215ae00874307d421ea20c786605ae7fc87d0be172b8c3c4,
0x12552fe7124ee6d20886a7268d73a94850f06a600448641df55b08e7933077c7,
0x2d19c9d4694d594c5382702070e7057a9f0c7f7bb2ab83ff684810de0e2106cd,
0x20a7d7794bdbe939ba166d34ae843e1d84eb4632122b7fca26f4e341b0e28b29,
0x225c213c0a3c9addf32f0c5bdb33fd6957691135d84757b4c44eeba59469e561,
0x2eb542a5c77f34c674c1df077e89408f5481f4133e3ba62a4b449cf64f9b2537,
0x303a003af9c1e54d9d3189920396d0c752c9affe1c17e3fdbaf67b3811fec7ec,
0x2c42a27e94cb62ffb6c169979d09f39387a9e9f9b6e9df71c9ff4165a8ed5673,
0xae6ba5ef2e7dd64e3f24af20271927e95859827e9a9d32aa247de70c5af9835,
0x4c58d44d2b14455273dda0c92739446ed59599cee1a505d0cb3631118845410,
0x2a5c4931de9f553fe4e020755d8b5c10c12ebc234ddd501d6f45b1b2058373f0,
0x2fd94eb892152b5ac3b73e6061f3a4f952198f3c330e150d4f44c933e6c8fb38,
0x1b5395c281e1bd5763201cd1c72a3b5db71a99ffcfcf7db793704c0bb4d53c94,
0x26d18b9ffcf39ae62f03177f4639f37f569b80500e0bb4553466d67b46342b82,
0x2c4eb768a6db2db295d215ba0f81dcdcd77e0e34bc123791c03ee7d391812b38,
0xc2e3f65db73f4058ec7c6cc3c3ee5c49550dc106c35929f0bd2d04590309313,
0x28f15a4dfe1c74ae128ab27ca3208dffd9313d4e87a759136eee3e194cc925de,
0x11ecc3e8d929c5be84af974cce44aa80bc74a16f13e9b9627f705e3929fd2119,
0x239d451ea3e39517351019674cbc2a84c6a7add8fa6080371768859e9a89f275,
0x2a2a9313720b4adb8e4f5795c3224053b31bf2d6016d9096e56cb87f01f81124,
0xc0089ad49e3644745a0e3596312b34ba6c0faaf19e362bcb56f4a7974c6db74,
0x2ee82c31a946f5d71be03b9a041596afe624c9c6a6c4907a8be5dd274c3d1524,
0x1ae0e9d39c6100a8ded3e7ecc34988b75c5338dc936c91c6f1d95c405c07bbbe,
0x1f11f75c7d0ac841001b3123c045526e98c203d1a6caa18d635f2f2bfa735738]
".
(** constants.go:1919-2114 *)
Definition txtC_16 : string := "[
0x11e27da7b7ef964948a332974d07cceea778bc33aedbcd09de222fa22ad0b101,
0x1f60381b83b44a8fe65a0f4142faaafc5fbf55f79133c5740c53f036a3065b65,
0xfc1e1ac8ad3524ebdbfa45dcc51576548234d0292adfe1cd70a706a1b6dadd8,
0xa40798ead3a12b78bcd8f10bb15cb0c426bbd2282a81dcdc070084ce78b8d76,
0x2dc09d3357051155987ea95594436b6cbf393b0135f51e2f675ea5f462f4a9c5,
0x104b9241d534264532eda181de1a154dd175ee150f349033e46ddc54181da088,
0x127a6208d98f6cd387b802fa44cab2037b3b91f0622f17084f1b8d8ac9d12698,
0x2d075ceebab54341dc02fb1f50d938ce1dfdcde659955a930ec18f8625f86d4d,
0x44fd5c2101a20be2ad923bebe15a477f40c6039a3dd0d7443fe72758042010c,
0x2b302c8511fbd3702b815564c5399acb8a8f2a8eb77f96c7f0849628e09f9bc8,
0x7cbe339db90599455d1eded1e8a870bd302c92a79b1d0f4ee87222cce99e22b,
0x1326749312c6e8bd4ef24c97c809f78ae548394c94c3df2f28ffa8105debe211,
0x54021406b8d1f8c7080e7c245304e4b7a797cd236dad92d929b223f269780e0,
0x5c0e033b589f8ddb23a9d559eaeecf98691a8d018f1279bf406d08f2787cc42,
0x2508a8cdd450f969b61c749d566c9459a16ead4330e35d5415b12eca38584bb1,
0x264dccc02e574ca7e736da25072bd8fbe9909621fd4f4169b2bae8d368ff12d2,
0x137199f796d310d7fe22d83663c8e607d342407dc28c10d27aedc4a45c8ff70d,
0x2f6877c1a818cf1f087343dc38dd120833574b9691540d03128a2d051c1be240,
0xf418e13a90e4295bd384c4d4764398e1e44865058e6d85f10396a7cb0716494,
0x1a6864de7ca70730f8657bed417c428aa5dddafee26ee78b942c86be61a962c7,
0xf8be2e253cba2f128e7365d8b1ad95f8986968cc60224445f2bd717c26088d9,
0x16a8d9f265a66f69fad6d7b744cf090e490552c6d4ac77f89f09d0ae70095a5b,
0x25f1a51ea7f88847cd19c9dfa9c8587ac7a4f4b8a10bf900d20270398b9613e5,
0x28d4a6eebf392a9378b7ad9aab8862245279a9f2c0b1678cb6d3141ebb14644e,
0xad7537d9d5bb7e34936eadf66fe924d80c893745fdcebd5ea08b79f9137aed5,
0x6ae9e1b3a2edb869b5c6f231fede58dc7dfe42bf3802394ce5d62c3a65567f7,
0x1f5d4250771eb130c046c8df1e77f7f77da20709346a334dbd22c72191045cb1,
0x14bd6a1b5678cda4ea3a16c3b5abbf38ee1d82219849cc37fbcbd934e7de1162,
0x22905156b6bb357e2727bdcb8f39a66a09828307046296c6d5322abdb932d0bf,
0x2023fcb87f89e6fe4cefc3d315249ed8133834b56aeab6fe07b7fc246b096c,
0xeef78e23ad00648fcdb65eb246c737b7b4060b37b6b845eb914108f1316646f,
0x1f3030be5da4e16c0468d631074a65f5457462fd6be6db36c3a522453164e48e,
0x10dc200b8c1b565d4c2e88d5bc1bad12c490a20d05dcc4cf55e9644f3534455c,
0x11a9cf0b8e97ea26ed0d49abf3a09233703333789a390d72db661fa70b1cc2c6,
0x15b97860d1a835a706f54a97ff04a15c69dd3beb0f86b51c83803d490c2cf2f,
0x1225bfd0d701b349214873ab03716319d9c96e3cd8d962028b17db843e4a7f19,
0xf4ebaee2abcbc49d408aa52c60dcc093cb0da884c4a92d0f280d7b100600560,
0xadeeea75944cd5d35045ec8cb6a57487287a92d1f70cd0b2389a4f128792ac6,
0x1874870c72a32f0d385294a73d0ff67d7234af8e0ec57c63b4f77e72130591fc,
0xcd011ee52170682d3777ba0085ec1620e19b1485d9898800dd2b1d74f613576,
0x2e72b9107cc1e1a9bef16bb21a308c9fe3fc9221e55f5d4cbd43ee8de297e02b,
0x7ad8d8e863868745d2c0c6e1d08dd357803f4653ea2045792edb563399f7d84,
0x273d3298e5b22284dd66bb0f5e963f0a6af68c14018c728fc42cc82acc384db3,
0x111b832918546dae5a1a71d312b412462b9d2bbe867be4fdf089eb15820bfe13,
0xc4dec2328aabeec22bef040c565b1227753c1dbcd9e470f906a4fcb5cdbe7ee,
0xd21f2bf0ab2f74a5eb38abf787121f015d88ac22de1490c548d0606b8e6d7b4,
0x1e08837512f3cfe1319b8f8babf49e738abd159e322227401b7a5441978f77d3,
0x211eaccc37cea3485cb8300994538c153b1dc5b8d63c96b437b91434642a11b4,
0x123e045851f8649e6332e3e208b9d4db39099f077a1104555bc38f68c62deee8,
0x8b66ae60a35e192963af9ca3e8681012d5288a5abc67065ba52bb151d4042e1,
0x2e9188c8e02a08b719f7cf8af307de827d424a166e6f9ebb172ba41855a405c,
0x52458b94157b0e5d0b5cef9ffe8e014eafd7cfc1b43611faf31c2d8d59b4eac,
0x24bb0266c20a04010addd514bf76e3da1276d13cc58faf89668e238b9ed2ed6f,
0xcd9a619dc0621a5f4cdba8303b5f69da6206bf28a04b96d4fdfd3a214e3e54e,
0x119949b91445ca55fa6ea8da2c11d93892e5b4cf3485599f41106eef149eea9a,
0x265ec37b545cd5dc12a27c1128c314a13e8cb222b5d25c3b9061934e93cb97b,
0x6aa84e7c246cd723c78fa394a7ded19596e074fff4ac200171a1f4c75bd7924,
0x1b4e6c237527565068aa65269cd73b5c4675b1148fc31fbabcdcaa341f63205f,
0x2bc7d97b099113c5ab67254ffaca493041bc43e8d344be98152e98a4fb786da1,
0x1e8fd4145c4cda03e17eb62c0f9d8cc97f5b13b83ba8400b57a3d80009c00eeb,
0xde458ac4a2ca65e25c6c028b23e73fcad1bdb3e3f1b6a730eb47e04dfa65318,
0x2d1ba2bfddb58785ae140c239197729f0c60ef611f3b377d4aae3c6dd444b5b,
0x29d94b0688e3236b20967ec747b92e837fcbc396fd6c348b1e0c748a6ee021f1,
0x2ec6c5500bc7998c7b821d209c608a630195b734c02a5aeb15b1c755b7857d5f,
0xd185c970b8d03fab0cb058605d2c0871c76af2047efcaca0e1be393a4817ef2,
0x300c58a0b3c59893a5acfa7a0adc1de29dfa3f16b4689af0535cc2513d60920c,
0x2360aebfee8827a4b9037013a6dec8af8f38308d119b3167df19e3eced62ef6,
0x43ba139aaacd5a1c1349104235e9855ee8802cae5a30a85edad853b092b5181,
0x1b0597b0023cc90297b8a4e996676d65276b1a4c6409d7c3c26008e56cfe6f63,
0xeb1857692cae615046d0febd92edbed96417c07b841b462f78b90960771ed0,
0x6399b5873506855684d027c760fa5b89721ac3004096114ee2b0c5ea727eaa0,
0x92636eca31acead1a2e63131e25a2cb4cb5e5db766615861f4fcb06e4321eb,
0x2e1d940f15c6a1f49a28f66c0d539f5ec4431ebc533ddfef8acf0f5463b7d0fd,
0x946412137bd02c889bc3f6600635398e5c29347a580994338e44a6fa41b40b9,
0x18ec2c5948557c8699e5e425ae42b5f51db8faeadb62bab808d1662253e61cae,
0xac166679eb2864d7674a89bda016c235736783820591cb9504b890b9117fe4b,
0x4db97e1cff9f2fb62e16077221c20306c32f579be40d7838e6ec15320c38443,
0xc4d540ab17d3ba0328f95369e86fb073f3660896d85a679ff9c6c99268bb7fc,
0x2e6b4be5eef898dd7bf66b3754ad1bdbab013ab0ed99c1632a489c76987f2ef2,
0x15f2072ffd2d6caa3d6ca13f7703a47c0bba942b0d9ba0b141047a297ae19899,
0x1ef8155e5c33f8855bfdcc24ac895db935559d5dbc442514d4272e0b2270604d,
0x194f4e345835e516564677d1af5193e67f26573afe1d12fd77673126e4b6c1e0,
0x2a3fd58a40436abcf4ff7d7a582c5bab55edf2150a786ed51c56c6ff2b668c98,
0x11729c1bf0a0f91ac34e4456d39ee6d2dd1c064368c2f0a8b76f555802d9af0d,
0x2e13f7ce1f37ee5f2839bacd94feb1063960ee6438f10e01000769bc2856e755,
0xe1442f5f0fa8737f50d8935fdfc204cf07e6fb3acd7c7cbc78fd28dce78deea,
0x1aac56dc7ff6d0adb2cb7b01c67f487e3c812350450993bccb186b2fba077957,
0xdb64a35a35a8fd6b486cf00f5324887f84c20240637b071d462a8896af11134,
0x2cf6b1eb727612b4676e65d750a2cb15c82f13bc858e0bf6c1cf87b96f8796f2,
0x761d1ff3a90fa0ece518705f2f80055b7667ff667063fb5bdaa950efc805199,
0x92a84456e8ab1a26ed09f4c9c78dfbedbf4904937bbbaaae9a23dc680fb01c0,
0xcf9cb1a0a9e17a9d6bf4b296ee0530c1b88141bce69357f964fbc22796465ce,
0x1fd3b34a7c3a44e18fa8eadb896e5a17ed439bed8efd723246a009446bb95f0d,
0x4b5ad182b4ba40ada5f69e436740417c1bc901b58515f969cff2fbde530787a,
0x17aed43f02895475ab9427f84c57b965683d44ac92554d140ebd0434fefd6944,
0x302772848bcacef898d59e149ef84e4822edaa6091e236aa41bd683acbd43a7f,
0x14b66c4b0f5ee36c9f94644a4110cd09825cc8c85f6cb328391e83fcc86c71e9,
0x18d6d00bd7b85619dd8b979158baaa87e5fd97a0c6d536c211a3ec663458fb2b,
0xc094c29ad77018d4da01ac5d06bbaf353330bafc55a942fbaa30b4876e11240,
0x1f6c4bd9672a340c114623c83ff250c8e410f0a3a11b4fe769099f8be230e4d,
0x279d9751ee739e974ab65792beb9276773537e2095dbe80baf236adaf2d9de3f,
0x2560999bf8b9ba17804b13067dd4b0b0022219dcbe167dab5f9300b68236da2a,
0x211d8050a0cc08d433d487381dfee76e39c8afc46292f336565121fddf4f8b4,
0x26dc6f484d1445c5f5c208ff1a487e372f1f8782dec0a5da03a85f706ef48e8c,
0xd11eab567c463fd6796c3bb711467a6a78f7d847de201eb717dba516808d237,
0x239b30a866e3778491b842a8c2df9ae14a6315981c2394c26d99ce97c4e7fce0,
0x2e35cdbf79533471e4849a97467eb4d1b21c6ad8ef34691e08b74ef19c27735a,
0x2237729ead5273e8d6acd40a63eb08813a2293e21dff54ea02619c6bdbb18c77,
0x290c8723936f36b91aa1fc42768007ea904952ec0e41480d074b96d41703d648,
0x1c279f1d50860ece8148cc1b59f5c14a850af2f3a7e2afb8fddf72964fdf9c53,
0x1938e4214605f8e2fa59e7f90eb10eba0e984c24a5f5c1b719f41421229922e2,
0x1b45ae36a32c689150489056ea161cf38ed1506f33a711d6b471657277d770ee,
0x2f0ac8b7be349d38f0ae7f7dcd7cc86eb3aa06c708b3faff90f6b24a8b691431,
0x1c40238de6c61dc8fdb5a75611be0d4bf7f5c4eb39fe9c065c26ae970e2b1f06,
0x1b4baa71e93d13018ae4ebb790bc188c4b46c892c6782a27115bcac4d165f3dc,
0x145d0fd15960dfe597187dcdd2927c5170b853928ee08686555ca5a57ab4b1d3,
0x83791a423ac40504e7c99084980599a3359ca693c6aacc47b192a325d6df626,
0x2999885c947c9dd00616bbfc088819ffe4c0d2f9033b04f408acfcf1d79651a3,
0x8d0a62a3ee05bc36241af5eea0b62dfd4f28c31fbe77fbaae392fa7b05af4f2,
0x18e93970a8a8070a1835114c4316e7ffc242eb128031aca086d3ce2cd3558e33,
0x126590f273bacddc28fc87c100b5bccf95eea5c1607dbbcbf05b6db2992cc12e,
0x21a7b2a18aba9b81406cfe7c64c1b0b4037c241e7565b52760d74e7720e92117,
0x4985dff243cbbd8eac16b7b6f03603118293966de095b2e057043891bf5174d,
0x18ad558446b1c9342e3846c398d05727ebc22d4a8c03de6380cbe55aab7241bb,
0x1b055d908da8e662ee4b05c3c66886a35bcefb67946cfa6baeeddd8cb06fb65f,
0x1a10263fb63bd4f23fdbacba6fb3f0d7499fea2e1e1547b36b17c4fa79dc0eba,
0x114b2c3f7730ae08a1a31bbdc27ca1b3fda63d5d8eb55bdac6578b27633395cc,
0x1a3f27e20df3c4045f3a67065ed869377e0c63a9a367f09f7a3bc63d4006bae3,
0x1eebb48e654885e9fdc60b3ad67b988530923f65fa76983851b1092640bebef7,
0x2ab3b05b9cc58838ee853f9d4a4817c7bbb1efa9deedb84d52c90ad9d80c2b1e,
0xbe8d510c3f0d8edd5716971f2452b3106ae0f4933d894404bc0b5eeecebe356,
0x300225e792be5f679ad2d4f8b3d070495bcdf876e50523cd877b4fce9bd30543,
0x2df4b36388d11c2ca5d95c24c93e8ad10ba7b74735753cd0c7aa4805fadbf0f7,
0xef6deac5ae321c054639444d4f0031663195997b4cfde163c75e989eb0629b6,
0xfe041753831aa6a6bc0ea08a153bd5a409de14ecf636b3682539074356e5852,
0x107105d12a394dbcb31832b57081aedb73e0aa17ac7c2faee1870d2dac147f89,
0x1c2618562f04166bcfa93b80c537ea8b35aa07d8ee33703fda76079f7b78f1ce,
0x27f7f4d91b9f452211799438a638f0c80e3db58ecb8d194e97e211e158df46fb,
0x2a9982f31c9f628b43652dc20217d9a91bdfa94bd125e1e032e4f6626eb3bb02,
0x2676c1451011dab5891ee8f715409412396960849613d13334af036176b7f343,
0x27c95df56dbab27660262717556e57b6d3d66869a0f834bffdcdf58c80de932,
0x50255c8e75aa4e294b921733803da9d6b9a9eeee28606bbda643a9122fc76b7,
0x26a0dbba1128c1eed674bf21e7a7d23163d48634967d0daf7e467501768d237,
0x16e80c84883b3370e75f1ab266b46f0b839accab3726278ec206998b62e789df,
0x9782b1fb5ac39e3124c5e857253337a4503950a6dd151f005963c92254ad7d,
0xa6975f45d3f7bb18c7db0a286cfdfbe0d75b79c74e67ad2265cd168c1670c1f,
0x9b2d6b4df7d70732ad35eeed1b468efd932a780e9e74cb82c3dc1c47b4c8440,
0x96195e37522c163f5fd66f13cac8bee72ae4b445224ebd85340a69b5a322739,
0x26d015d70931042ece8bd15db6b08bc1496b7501baf0c8bf4a5534fd60422941,
0x39f5d3bf59ceb12854079a2675ecece7b8cc5d9ab9c3d79adc1d181ca6198a9,
0x1352b30ec61d92dd82e2360d38137d2fb02c1e78d6f99cc437e8640becc56122,
0xbd8e9fb03b03709c0be6510b233fcffbc1f9f63f4d6019b110f77417fe381b1,
0x14d37b7920faff9ff10ac3568122fe38221ac783e675bd5f6e69494755853723,
0x2208c576d439a6c9c0c380e7063fff76a1f2685bbed6fd7bed23c732f345501a,
0x8f4fa71b7c3c71c66c0075a5b7a0cb6271c6f7568979d3742e2847cd650aa55,
0x30553e47d42844f4dc97d3b96dee7b6c483d2868125eb7de508164de2466b74e,
0xe10c2cb9014f110cb54d27ae0130988b0c32a55f8d111f2bf797dc5b2c39a86,
0x2801868c0861bcc953405e4964dfd447a8888d8839aa7e414de176c7c061e238,
0x23ea7dafbfe7bf1d8f8b4ec83aa1f0ce31fdfc9ac5d2cca02f14ed1b87caf599,
0x22ff012edcab66b7416dca632a59caba6d641e02f6fe47e7510ce945966f3721,
0x2dfd80076ffbaecd97311a5c0b2314400005a1f07b6c21d92228583ca5b5a4b,
0x23c45a61f4f2c8b3e066a26e232e26db93aaa24e2f65d26601ab2d7a1b95606,
0x2072907f984ca35bce9ad3e82d8c30f9acc0ce98d145e4fe277e628489594e2e,
0x8964e49de9a9fee1ca762ffbf07f8c4a8122bc4e90e7b567fcff008a6e45e6,
0x2dc503267b1497a821453a73030f2a3523213bf0db9d5b061342cd859a1cd907,
0x5fd4295ee0e76dc56af4119e7376a593e4bb185af60adddf232b91e67fb2aee,
0x2092ffeb6b7760870dfaf471823ed7591fcf6e6bd5b1bcf43775d3c07b462706,
0xbf1a49f9b9ac34d30e463ba797e3e08dfb424791ea612b280932ec208c7f800,
0x272a88a53e263ff0a56bff4cc645fcc269d3ad5a63f9625ffe9eac93a36b77d4,
0x27bb4022b1f689184b10d6f29824311ccc5e2ef14a3914aea8f06ccb7f2aa8ce,
0x178f0ee74c834c0d22f7aebc5171f960b20546dd9cb53b3ded78a351ab41ce10,
0xbf6df276b3f28afd5206a8646dd6f4c095fd98871a5060502f3a6444be321b5,
0x219d4e79092df13b3223f935d2a0a2573c1f7d509a91dd7fc5533d4c3c5d098f,
0x20f5702b749f56df810411ad9950ca9f87f1e0f97b8163280b3b2df05b679b4d,
0x117284f038872bce68c791ad18246ed84badb692e338f716793f5a6bf216386e,
0x2c2dbc65a26b313f84567ed71d40847093d08ce8c2b8a343c62b7f57ef63d968,
0x1743373e3858cdc0582049ef7e0284d33403cc8bf56997c508a10b5fb008ae77,
0xba28f299d1ca31db5a3bc0e8202e9ce8fe85f80c4f03f9eae2dab5de051a659,
0xe46831dc32f73c1086055faeadf047d3408c2cc0dc2e725c878dc9ce68f17eb,
0x1d8635cde2ec64aa50d8d979e29ef11fa0060bf86ea00762250e314e2881f70a,
0xeb6d86f7e11b1e3dc21882511e03b7aa64063688fc52f655f12e34a343dbcb9,
0x20bb2d1b0caed114b06fca648b0703a7346f6b2690f220f82e7710b586b6a81,
0x1c4db5ac81e0e47818bfc08f7ec2d66bf15daaab8ee766728f588539eb60075e,
0x16eba5f5dd46415f55abb8199b0069ad3ab7a78e8eedfafcae845760a4b1e525,
0x46718c49cfcd67cfc27daaf0bc00db0165a8b34bd1801110b85c3f890779f02,
0x10eccf3b4cf167cd78f9eeeacc462eed71eb92a2e31bdc1fc4b16c0b19feb44f,
0x16e1b2c0dd88527774f18bc53f4274fd15a5afcf3656f149ba7bf0d67050f3dd,
0x1d13bd396da5a68e7b801ff0b2c6c2725f961bf633d0dfaf1a4b2c904969ae53,
0x2023518104868b1b97d9a5170d7a33230bff0618df4a31b381fbe9a0ea3224f4,
0x84c4f9050120239d86cb0d84535ccb94821f0a1def04495ffeb559f153ddc26,
0x1ff6f423d94667ef2d79660600e05c570f74d77ae07139d2019069ff96c83566,
0x7b5719a1e09b96a5ce2c130b9d3ec76002d81bd6a8b46ad27274036bb363bba]
".
(** constants.go:2115-2322 *)
Definition txtC_17 : string := "[
0x2fb583762b37592c6c5a95eb1d06694b6c6f9dc4f1ad4862dd8f5e67cb7a3f5c,
0x12e9f46cd8231bb03d4028bf7a11d7c0e331dc05c088e6dc3d1d001da58b85a5,
0x1275cd70326f52f816a7c53fe62e323efe61a5b8d3747f6dec5837a825873afc,
0x6e7d165b57b0299d23e750a75ea2e12c9c7a16954c40a4d10904a61e8773541,
0x2f67f23a93ef1e215a4add2ecb41bef4b9d85ef9135065d992800e34fa98108b,
0x169eb9952e2a8623ef38de57e15e242df388019489e01b7c84fa839d864dcd1a,
0xf4cd404b4024ca13a513ba3156d4de9cb3aa240c683b3e0eb7253bc98c8b5f6,
0x1c486bfae3ab032ff519e8dca6dc41ea060b0ef9083127bd7c2c4e089fd45aca,
0x102e745864251ce940c67b1e2f4bc4d27fd3851571ce6813baac665e8cc0c79d,
0x1e6a6d620433d22293044ffe36a5f2a729c129cce3eeb0bdafdcd0d52bc3bab5,
0x8f3abf97ad8d01cfd8651ff2d576e3d68ecc47aad82b4188d92138bae603b6d,
0x283da3f1cf8477d9821ee60378b1c39c72428511a1b9d6683c0302938c248ce6,
0x2d99cd8d88e49e0babc84cbd58adbc143a75a26ba16f96466a2e41629734437d,
0x171edd6a7456a4c25fef8aa6d8b748ead869369f72a4e502861fd037dda8f779,
0x2fab64694369e3a2bd573c0cc383695c02a381e785792a3fabd6e1ca8df2d3a1,
0xc6155944f64f7694fc8ecd2a2b9a2370568c3c898db9531dc18c72474f9afe7,
0x1ee0e5cfae030622249210cdcda71437f28f0b1730653c0915efbfc08607c3c7,
0x1c15154895ebfcbade12f0e02f0cf65f87351b1972358beb0eae6b6976cadabc,
0x467fedd16f9e87b3069ae697d185c9c884ed5d9e64bb814bd11f71885754083,
0x2b5565852f65969bb087fcb51626b4754b69136d92546fff44b7048b2f9ef8a2,
0x2250acc27d5ef8d0f4ae8ede77510a7ffb897d45d9c93fb2ece4fe4c9a520f97,
0x2c0abe26ff8bd475ef727815bab8a81d154d2c1e36eecd07574222782b02a8c0,
0x19b0bd9e0c5fa1f56885be00fe97cd4ce8e107e95a10838b70dff34051188a69,
0x2342fa805eeb2b237633942aef80bafd3af387ec8d472f5d12e8f9834d32eaaa,
0xed57663a2a64c73b2870af0065ceb8cdea397599ccd9823747f884cdcd8faf9,
0x2c8da824719f86bbe3e601b19d3ee2a9fb766e7537aac2ea9f44ce4896e64bfc,
0x242fba876b16361e11c677d62c6aac73930683c0c40bc11938247d2c244a4474,
0x180cfd0b1cd3af7d5903e1e638bddc6711876fff6d5b12607290debd5e409b3,
0xfe8ce1b265d657e790bb82e6881b2da774713b724b9a88ec36373fa66f915b,
0xe8701cb0f031d03a5d81fcf949230dd38dec12218ed937cb31d58cc4640809,
0x7ed575f9154b12b0fbc12bff4350c6a4d38859d10f557d38c513b37469f47be,
0x22e9f46e17dda4066a4af81a4be19c94de4b12e0921f819030f8352aad050b91,
0x2b21049f7b8e6e767d633dcbf2acb264dadc7a85a39b937458c134f652a6ea5d,
0x216c5a5bff445ac3a3da1eeb706898437840905b9ff27dafbf38efa470bd0bd3,
0x2e14bd4f01462ffd0c83929aa97706ac772f66a3a0a0326c00eac11f9d5a485b,
0xf28e51e2f777239205f13ea21e8f33172ae538b21fb69bcfcd82ac51500eeae,
0x2c2295ecbad9cf1b3f6a773c69714eb4663a01827044169e7f1edd5838106eea,
0x1afe7b1d8ac438739d488ef003f9c3c679e7fe2f0918bbcf93ad1f127f2281e,
0x2e0833dafe87279685cd5b5a0105f8b98774b3083833bef43608bca8451b210d,
0xbbf4266fca0861341c7196fc15592fa22dce6141935e01fc6077c774cbb967c,
0x530c66b07d2db8dee36ab00f91c5aa0a26b48d8940f0b72735a65481e5e781e,
0x2ecabeec31877a68058a22f773e92d483867c01df7d050c3fa953ccce90acb51,
0x1e379c0d2f9d0b659bc732b57689e48c0262a976379959e12b95cb5d45820f28,
0x27767756606bf727b8e5361002c613d6c3a20df9c1788c9c122d3a7736a6b340,
0x1be3d832de2196443062c3b42321ae05779368ff46eb68fe57d835d8d656ae25,
0xe9b839700b18ef3eba297cb68ad992b3bece0cd5bec65e6e40712425447dc59,
0x2760900970a34d2051ae587ec18f502d246070d70c2c3d7fedeeb51bdcb785d,
0x370ec3f70286f496692cd5f50f6b06e21c5cd89fa28f9c8b71d42b4ba277906,
0xba8f86362e1f301baeebb2333893f7fba2ea082d75969a97ee3095baabb10a8,
0x2d683c3cd7b4f544bbe4a6baa9aaf78614434a5915299ffb37f92abcb4a4dd6a,
0x25544ccf600d8604bf3e11aeebbed37b77cfb1b22f3b110a930c91e9e7951f82,
0x1c583675e423f947344328315280966833f05f91a2a24aeec1ab6ed37376f959,
0xcb752efd07c8400d50a06f3e1baba3cb35b0ba28b262f8526f5eb0ab5bc79d8,
0x14cf442b6f22ca3f4c16974e2eb56ca084d05eb93ae1049275b8bcbe4dc238f0,
0x1af1b935bdb5607897f4ff0745ab08140d6e80878652855b1947576fcfee4fa7,
0x2499ad4b7965230d4dd5d1c41e00699c40433e22c2745807eff395a13e6f1f0e,
0x2b582ea1669028196e62e62271a36f532b14c0a8109d34ce53df9b75b81d63aa,
0x1c335a347abda047c4b5ad93dbb2e9412d526049fe1fabe1b5fee25ee99e0bef,
0x1e3451c495c60dcd443730401ef329d70571e3644dd7b5664cea26daf8a70aa4,
0x2d96286e6d9eadd63e393335f1217710746ccb928834e73105823acbd2da005c,
0xc1033de21891ecce9bd0afe313334f7e65977994e545204d616ae0ec4c1bd8a,
0xf0f51cf6db73e970a6b8efc8823bc82cac8403ec369c02a14affe5fb40eee36,
0x8ed2dcec016b8eedc067a6da7b562484c010234d84821780662acf9d281b348,
0x19a5ec3b7882ec910bf7590e9774b63ff37909995a6d695611d5532d6b81a5,
0x23feec5d6235a405f0d53fc16c955fa0214cbb54fe973948a1dd39263607c33d,
0x85438dd42c1d74fb0407e48ab1b44e0e42aa3f54b8d7d4f6efb87102c6a00e9,
0x1916f1d621aaaf4f9072bfc4e41b4b78e82b595d7510d507591414c005fd0327,
0xfc2435156d4ee76e9a85ac6aec2fbb50b0b77795c370c2183fca9bcbbd07693,
0x26cf4d12199003f6978f80761784de0919d3a14887a57d4a28b4ff3ad39bd969,
0x2c480375d8dbd4ac4f039f452fe1a9f074c811d48dc2b214d3f5de827a1a2025,
0x219b5f8126784340f278b77b765dc4c697937b3d81ba2691f8979839f02cc0eb,
0x14adc2f2733f55d49fb628c3ba41110e16946214996d1f93262b9347cfe69a21,
0x230a5fe366e0aa4dfae1dc35e0206959781a64f22d5c684e53ffaa6614b1df31,
0x1279f8d2e2d43a9eb3b7e4149d16451b78c65118b5a80f86678f5ee6fdcacbde,
0x2be4cb4144aa4b8e705c37da42b8819f0165ef3476fbc327a3a3deb0a0e8d751,
0x283b18f7a149cf2f2c8cc446513b5a03a06022cd859f16da1149e7dc7c60a45a,
0x2d5baf88887aebe22d5d9096dd6c45e941f6a67369af01c75479e707803378ac,
0x1cd9a6ffdd0daf7ca9890868d9ab398e0546335bf29623aded76e4f7afa5ad55,
0x160767c1cb457de2acb400781d8cdd25b99f75af301e749cc46049c8db5563f7,
0x1bbbb19bf384f9812aa63685729e0dfe06f3454c12139454707c1789c39fca6f,
0xad3beb75c91ceb0b2bb8aba2a1c73c95e7de57b8d5a7984e9f4d010f15a1755,
0x1841eb6cc35a1dd64feba1d8ad6cfecd65063e1e6c2cad4fd5bff1b4614e0b06,
0x2356eedec4882d9032ce821d611b98779bd344e2abe0a57de4de06b72be6b447,
0x10fede6245a9c78b391e69db91108306bee130faf298432d60a4944ee6ed6479,
0x2b4f28161c7a843692b07410223d8b5db762ff16ac0cded416c3594de6a53443,
0x1f0846b1b26aa3db14ac0d69972c9118051183ed1d1633876b44c92f022e011b,
0x28ff7a7752e51734e1f568c6aa3dde3009c22ed210503d5dcd7dc25f7f6767da,
0x1a3acbdd739794d252150399c6a8b3d114d97d643d4ce83fe8f64f41d8c34e93,
0x290ba46b38179a447cc81d0031d18e9baa34da9a60ba7df3cb2c7654bef3f412,
0xb9876589637ee3628c3a08500d67363a1a01da7a1ac81f528c450e9b050c6ea,
0x35b7b33a1e17c6d1674cc229068e03d3d1767bc950d68a2e376f0c793a896df,
0x7e6b30a0d3c2526be65920e6b873de72db1d761f7935202fce088538741b347,
0xe5ed87393495c2a7f3b877578c6bc09653755179159351d8e67470abe9cc690,
0x2824873ab7526115957736a5cdae583bfcee10b9d418ef8e17795de3386f21f,
0x1db49ff47ea6ae80c26654ff5714e69cf3a1ff7b31b1fa7a3b9e64618305d582,
0x1be421809f80b11a626a0eeb927a39c2413e7205d25c89276bf5633565038941,
0x3b7c7629b535df5b487211f4e789b9a287abe7c453632ef7d42623c2d2c377e,
0x12a9f7f6e0c65acdf8c9fd354f7ec84d6e41638465e347f3063adc04e00e809e,
0x1df5905e387f8ec81128c20ffd995fad5402096e3cc6d2e229a23709b6859ac6,
0x2d39da8ade615636070e6734fd848368d58428aa3b2aed784d8429f2075d122f,
0x327c1d1f0dd35b08df840db2579623243c13d9c073b9d70984bcfc97c9beb7f,
0x18a10f3e452a08076aeb6b825004322a48a6fb0f51956f50250a41a49454b6c1,
0x1e94dfa0b21f7b3e6047d599b3ad491a693fe458add2a56c5ed16155fac59ea6,
0xfe2016941461beb0f0bed25bf31e8c9a36f21fd61cf70095d2da2bb93bf3b2f,
0xceb82937c84923d76bf855a1bbe412dd3e35d0378007404477883d885b425b4,
0x16985b2ee64b42bf9ba0673beb0e47580763c527f4792fe994c23e3046621a9a,
0x10e6ff96c5dad8a34d7af2e3c6ab2e1eb6ef57849233d2945fc0aabd404e5b6d,
0x192fdbc53b382b45aa3020d21665ddd656bc1cc332581cc71ec97c3ad71dc542,
0xd8431c14f1ff4640fbf6990506d930843bcdeb4deeef3380b5cf2161a3bd030,
0x604632b70d1c0dbc74ed29d69d11d37b90669882c2e3d6784b47a5aad03495f,
0xf2553c7fa5beb9cf2f6957b01ff7bb7d3ed61f9c2e6fa8a53264704f986c193,
0x1fdc2bb41ac0418d8351414dc360ab2dd324d1622807cf59db5ca6aacae5d58e,
0x18c42a157f39bfcada57e085c7cd33781cafc7b33d6505dda828972966a9c2ac,
0x2645748d1b13c825bb457aa7761b9ce5425c56137e213c8634c87ab29543ba1d,
0x2788af72cdb594ac08f41269497e1ae18d44232ed0f80a06bd9e72fd216e3972,
0x21ae229ea6529c4f9de897bb849ab6bb15bb92ee41f73d348c10ba8d64acbcff,
0x1abcfdf990784706f54792660668ad106d1a6936245785c3fd023a5344cc25ea,
0x29ccf1d934f2a647595d1be0900002b9b7a343c3e7d3ab9ac3d2ab8de01abf8c,
0x39c2ffda04fb850f5e70d97ca2d93fde05b651b310b1d27dc298b9fc888d9c0,
0x1f2ba53bf1c99665fd6f4e862ac08899a41da938198153e4c638bade14719a16,
0x2451b8e4232ce9c809e439b6eb5fd2bbad8f51e9bf0429a33bb0ee95b7890719,
0x171a629d2c40364327666e0c05ce3097b2be05ea5c75123fa78851ba178980e0,
0x8c9b34df311a18764044e24961a95d1b2dcac3c6df9bbe0480659611db8f137,
0xb22a3e321a38a3801404091d2b160fc133530e8b7a52d2422c9f1a8b252bc20,
0x797c435ebe5c845a743f87a7f0d267f33bfbafc9f1689c2796b392772e7d301,
0x1e7306b31a137fcdfb389fac64b5f1ddc6147bd1cc7f30f11d67870454165dee,
0x112f01c5aa8b6ae92e2c8ca7667f5d21a0b1e4a8ce00a2ccccdc459ade9b019,
0x219de6b42df30699c66921c11e899b888e9ed317b586abed36fb7692b1216b1b,
0x86a228ba57047dc5bbbb04bedef0d87c1a78cece6aaf9b698117b292705de04,
0x14e98432357efd4cc323da2a344142e74f2aa117cc1aa4b559ad83e541ebea49,
0x1e6b895858694eecad78b8b88d54217c879d8b86ad928190789a09147168fc96,
0x15e37faf1d08493df2b643576e177c9fc704fecf164b7327481d32313d55d161,
0x85d0f567ddacd3f8e5e00c4209cd9b296693dba11d00879629b522270e798ed,
0x1067df821f616fc9635104d5b2150f831ff04a1f2b1399db49673e80c5c86db1,
0x90332160427de3eb055f9b8748f7e2b88c11f415576e72e4e087416544557ba,
0x2dc94749388ebd876e0d44ba0105f8da36fce0d45831e4255092d5c7f8b84225,
0x118c857f29e5a253d50b4d24d2d0c29b82c68ac4ec31e88bc43c74a9487e795d,
0xaf67f0d07a2fe41c72a457c92e95458a77db9ad0a28768b62b6681adeb11579,
0x30104204ad0fae366f11620b2f12ee6bb7c141e2fec7e29d963e6fc94f8c828b,
0x1976ac8ab874f49ccd63235f4d81cf0032ce66d53b0d9a910da3b8d0524a5a60,
0x2c316de3167edeb721ab1270a0748ee7f77ed7a8a7c727559436f6fb9313bfa3,
0x9d2011c83a4c911f4535e741f79432b5f2a5b8e53561d179496ddb63cb759f0,
0x135bb87773cca2191cb5d22ed48e633d71149119bdee6569623af883ed734294,
0x2d47ce655296753999d0d8cabcf056f0047eaa166f5f8bc3cc5eb601ed2c5600,
0x12b3ae2f8d3633702674a4ea2e98ab5bb186da55cb7f5bad038be08a46f8f8fb,
0x1941673c79be83924a43b0159e5f0919c3b4bd334df567e23a109d5ad7093a96,
0xb524c1bf3c392285d49a42d8bdab4ca454514792e2abb5bb4f62c902c9b9190,
0x1515ed77226a3311eadf3fc8f035c016fd3705a08b8a9dfc2175fd7bf58eb8da,
0x64862973bd0b7b75f7b4624a84d680fab7da9b6741aa5d6edb76a9d0c40cbaf,
0x1a23361fedfc5e494b0b2d4eeb80c93f8835a73100bacb989be5226fcf0df55,
0x14752381dfb966594721cd9486750a4f1f8e337b06810938317563386d4e544,
0x4a09034e0f69e26581ce66e097f9b5be008d08be687b8122540f2e3262914ac,
0x10bb764a96bf402a53785cf2eb4af7b05e20d89ad0658aded12c1b581511538f,
0x1499cfd036b8ae372458561c19a59aa635054692818f9b3234707168298fa14,
0xa8b3b48ec68bc2fa9e34521099684e72258264b7796eaa9bc2130ca5f962fcd,
0x1a46e59c6c21c9d54b9b231fc1403379d01e16680bfe9622dcc01555be87487e,
0x9569a38ffb6c33d8ebcadc6029a3ba8ea8c8ade1a7874c3f017516c358cc698,
0x16a9c201d574004d0276db42e7ef31592cd49a56b9b768ca73c7c6d1ddd6a2ca,
0x19c05f9660f2cb6b113179e32656fe2b39c9307c0d1e9b3e680983e27bc941c7,
0x29f4b811dddc6725ee59fa5a28af545cb21f15cb7fa6f9885cb7d6a405a063a9,
0x1f99271ffe92b27fdf561572e5f6092fc06fb7faa9cbb2e07608067cdd529b10,
0xb9fdcfdc7dfb8724957f00327ddd9372f8fceadbbd41583b66726b252b6c089,
0x1936f5a41ce7135c9027047ec1d759bfd91ca70a62324400f15a31debf179ba0,
0xe5eafa60334d7cd71251663f5b91dfe10ec503a1b2fe5b3886ad9b10662abb0,
0x18065d065c304f7953231240f544ac51d897f58777c69bb9d1f8a486a10c177a,
0x2678766be9d2c5251479999760ea8d6fe4a1525095e312fae3ccbaf689e7e809,
0x23750f77af3988a0600ff868b61b9e5e3d00de0f8759612d4af260cf4b113ce2,
0x7318b129e4789d21bec7920ba354193fdd6fc628eec1513638528431272925b,
0x2a7bad1eb2e6418a954869513a7a531c58f0985c64aa07db26f8f7949fb0861d,
0x1bab89c7aeb8f0f1c55bf1aebffd937a520cf6330add93cc33846077c83a987a,
0x1552d5985864ef2844ae3d20a40a368a4e032a4ca49d8ff6546c450cb1e079a7,
0x4b91151b3b35f11f5996365de43d43fe5476e5bafa6f711dc30face2623d320,
0x7568334c7a0595b5ac2105b2b5f738a5df0931aba8576b970722d4e45c912dc,
0xb162e458aeee52ea49ad59cd7b5fd2dfda24fbd9de8cfa1cdf06016e9d171c0,
0x2cef3248eb4dae55793e1bcfa553c9315f6b78c356251508e79af7cfd8ad95d3,
0x15e7245ad978573a5e2b912527de7964cd4add05fac3654847cc0b6edecfb9af,
0x27c471daf0598daf80d02e06c8171f94dd4b689aa0bee6a68e57b388ddc52155,
0x13cfdde932c2d8f94bdceae7ad7a0ba5d545f2ac20a04f7e9397d67b942b09a0,
0x19f9a64fb9d109936e840d1cbe108c9c36eb46d237cdc8462ea8267faee7e8b7,
0x14169ccdf08725826332bbd522d72ef94b5dc96d07a18359b0cf770331224d67,
0x2e8744177cd2849b77040421907fc4a9c356c4cd02ccf32dd8f05386ff3122e2,
0x1507d5deb9bf6bfa10e2b432b56daac4ca62d302fd8e37a021ecf111eb42018a,
0x26d7097b3269c5d618a95bafb9b128a872c5c85d770515b2815b581e94c8b9fe,
0x1c7ab275f1c221bc248d8498dbb05c47f41b97fbdb637bfe155cf1e75849d476,
0x2673077405cc8bc1e0d88920eae1a797d7a40f9999385be0da776c0326b9206,
0x23fe81be9b9219be0e6312f29022c7d0cec98da3c51c959852d951d6f1cb638b,
0x10ba3c183fb3890c360fa562760adb456b01949ef7151ed8ab8103f31c7890a2,
0x2d5259daac231ce0e74872c4065e14db8b32679927872701bae243f6842c34,
0x1a637c2706a996ff57c037f4f5ee37501fb3e7de4d067c4c0f5ccf30f9d82a05,
0x2e6067c558d96831add6dce3f7668546f96cd84c4e227cbce700964431ecefa0,
0x1a0c5d35fc732851917ce3bd13a7f28f75898537f6ff8eef1a1ff41b4b7ae935,
0x2edc867095cf941cb1ff7887926a4c8c44ceb1927172e39b362d2f7461bb1b84,
0x2f2062a65c3fe731e2aea024198e417627f38d6cd91e0a4874a856122a9d965b,
0x261a9965be69de3ffd74235c3a239e3e374cfe12090f6929e7c4442bfb8b61a0,
0xe51a7f2109df256ff814fc310a3b08efd5bc160698af9ae219c26603e84b586,
0x201537485c818bea2b1bc635035c7f92ac4be93b1a732a259e5081c6b10822ff,
0xb1dc66c364df6ca43e96ce916012cfc49115a6635e8a76a13c56f966991ef4e,
0x1b70f07090ddb1c480c10557d2f818c2355a0d0112f0448f457196db0ef585e4,
0x1941694438a139d8dde10865876403207f657a2883117cd3a8cc2e7c5d24f32,
0xcf031701838c4ceaa490cd36e710d3619ce54048ea826cf23a2c456f245e6ff,
0x132d7fac73535b2c795ddaaa3a69281704e85097d78ac6e8b1e9e8a7721863f7,
0x4aeffca0f9922fd0379b69a7fb710b49dcd05026a3f2576a48a6e04f91b630f,
0x25f5b5001f87bf2581938f3ede0c2a7a35141c7abc3e5bb7bb8601a22a3cf43c,
0xe7119275a25b2b8a4a6aca534650e84ec72b490a41384d44975ed8c80a2a28a]
".
(** constants.go:2329-2342 *)
Definition txtM_2 : string := "
[
[
0x66f6f85d6f68a85ec10345351a23a3aaf07f38af8c952a7bceca70bd2af7ad5,
0xcc57cdbb08507d62bf67a4493cc262fb6c09d557013fff1f573f431221f8ff9
],
[
0x2b9d4b4110c9ae997782e1509b1d0fdb20a7c02bbd8bea7305462b9f8125b1e8,
0x1274e649a32ed355a31a6ed69724e1adade857e86eb5c3a121bcd147943203c8
]
]
".
(** constants.go:2343-2363 *)
Definition txtM_3 : string := "
[
[
0x109b7f411ba0e4c9b2b70caf5c36a7b194be7c11ad24378bfedb68592ba8118b,
0x2969f27eed31a480b9c36c764379dbca2cc8fdd1415c3dded62940bcde0bd771,
0x143021ec686a3f330d5f9e654638065ce6cd79e28c5b3753326244ee65a1b1a7
],
[
0x16ed41e13bb9c0c66ae119424fddbcbc9314dc9fdbdeea55d6c64543dc4903e0,
0x2e2419f9ec02ec394c9871c832963dc1b89d743c8c7b964029b2311687b1fe23,
0x176cc029695ad02582a70eff08a6fd99d057e12e58e7d7b6b16cdfabc8ee2911
],
[
0x2b90bba00fca0589f617e7dcbfe82e0df706ab640ceb247b791a93b74e36736d,
0x101071f0032379b697315876690f053d148d4e109f5fb065c8aacc55a0f89bfa,
0x19a3fc0a56702bf417ba7fee3802593fa644470307043f7773279cd71d25d5e0
]
]
".
(** constants.go:2364-2393 *)
Definition txtM_4 : string := "
[
[
0x236d13393ef85cc48a351dd786dd7a1de5e39942296127fd87947223ae5108ad,
0x2a75a171563b807db525be259699ab28fe9bc7fb1f70943ff049bc970e841a0c,
0x2070679e798782ef592a52ca9cef820d497ad2eecbaa7e42f366b3e521c4ed42,
0x2f545e578202c9732488540e41f783b68ff0613fd79375f8ba8b3d30958e7677
],
[
0x277686494f7644bbc4a9b194e10724eb967f1dc58718e59e3cedc821b2a7ae19,
0x83abff5e10051f078e2827d092e1ae808b4dd3e15ccc3706f38ce4157b6770e,
0x2e18c8570d20bf5df800739a53da75d906ece318cd224ab6b3a2be979e2d7eab,
0x23810bf82877fc19bff7eefeae3faf4bb8104c32ba4cd701596a15623d01476e
],
[
0x23db68784e3f0cc0b85618826a9b3505129c16479973b0a84a4529e66b09c62,
0x1a5ad71bbbecd8a97dc49cfdbae303ad24d5c4741eab8b7568a9ff8253a1eb6f,
0xfa86f0f27e4d3dd7f3367ce86f684f1f2e4386d3e5b9f38fa283c6aa723b608,
0x14fcd5eb0be6d5beeafc4944034cf321c068ef930f10be2207ed58d2a34cdd6
],
[
0x1d359d245f286c12d50d663bae733f978af08cdbd63017c57b3a75646ff382c1,
0xd745fd00dd167fb86772133640f02ce945004a7bc2c59e8790f725c5d84f0af,
0x3f3e6fab791f16628168e4b14dbaeb657035ee3da6b2ca83f0c2491e0b403eb,
0xc15fc3a1d5733dd835eae0823e377f8ba4a8b627627cc2bb661c25d20fb52a
]
]
".
(** constants.go:2394-2434 *)
Definition txtM_5 : string := "
[
[
0x251e7fdf99591080080b0af133b9e4369f22e57ace3cd7f64fc6fdbcf38d7da1,
0x2a70b9f1d4bbccdbc03e17c1d1dcdb02052903dc6609ea6969f661b2eb74c839,
0x2f69a7198e1fbcc7dea43265306a37ed55b91bff652ad69aa4fa8478970d401d,
0xc3f050a6bf5af151981e55e3e1a29a13c3ffa4550bd2514f1afd6c5f721f830,
0x2a20e3a4a0e57d92f97c9d6186c6c3ea7c5e55c20146259be2f78c2ccc2e3595
],
[
0x25fb50b65acf4fb047cbd3b1c17d97c7fe26ea9ca238d6e348550486e91c7765,
0x281154651c921e746315a9934f1b8a1bba9f92ad8ef4b979115b8e2e991ccd7a,
0x1c1edd62645b73ad931ab80e37bbb267ba312b34140e716d6a3747594d3052,
0xdec54e6dbf75205fa75ba7992bd34f08b2efe2ecd424a73eda7784320a1a36e,
0x1049f8210566b51faafb1e9a5d63c0ee701673aed820d9c4403b01feb727a549
],
[
0x293d617d7da72102355f39ebf62f91b06deb5325f367a4556ea1e31ed5767833,
0x28c2be2f8264f95f0b53c732134efa338ccd8fdb9ee2b45fb86a894f7db36c37,
0x15b98ce93e47bc64ce2f2c96c69663c439c40c603049466fa7f9a4b228bfc32b,
0x1c482a25a729f5df20225815034b196098364a11f4d988fb7cc75cf32d8136fa,
0x2ecac687ef5b4b568002bd9d1b96b4bef357a69e3e86b5561b9299b82d69c8e
],
[
0x104d0295ab00c85e960111ac25da474366599e575a9b7edf6145f14ba6d3c1c4,
0x21888041e6febd546d427c890b1883bb9b626d8cb4dc18dcc4ec8fa75e530a13,
0x12c7e2adfa524e5958f65be2fbac809fcba8458b28e44d9265051de33163cf9c,
0x2625ce48a7b39a4252732624e4ab94360812ac2fc9a14a5fb8b607ae9fd8514a,
0x2d3a1aea2e6d44466808f88c9ba903d3bdcb6b58ba40441ed4ebcf11bbe1e37b
],
[
0xaaa35e2c84baf117dea3e336cd96a39792b3813954fe9bf3ed5b90f2f69c977,
0x14ddb5fada0171db80195b9592d8cf2be810930e3ea4574a350d65e2cbff4941,
0x2efc2b90d688134849018222e7b8922eaf67ce79816ef468531ec2de53bbd167,
0x7f017a7ebd56dd086f7cd4fd710c509ed7ef8e300b9a8bb9fb9f28af710251f,
0x14074bb14c982c81c9ad171e4f35fe49b39c4a7a72dbb6d9c98d803bfed65e64
]
]
".
(** constants.go:2435-2488 *)
Definition txtM_6 : string := "
[
[
0x124666f80561ed5916f2f070b1bd248c6d53f44d273d956a0c87b917692a4d18,
0xa514a5c227f4cec95dfa029e8dd124c34895aa46bb27c0911f3780d5015540a,
0x278bb49a7b4e44aea46eb0f882cb692801a6e60fdd5b5c23c63cd65ccce4fe0a,
0xc399e9f67aa40707a203feefb0b958bbdadcec5ca34901d253d026a2419f6a2,
0x1d6b3d5f6ea369c26f825d2362933eaa31ea35ec0a77c1fbd9e01ca1523e4432,
0x24be510095436206dd0abd0b0cbb95c883ab304aa52598b1a69306ec981a688d
],
[
0x11924f02fd19b09255aaa1cf46ea0518e3d7bfeef47421609491011db0bd0b02,
0x192e16d17d956b257b85a652eefdf2ee09589eac5be80915775723d2cb1da06d,
0x63edec1bed831f506af8db648d6fdea145345887e8bdcff109035a1d9b674d7,
0x83f0df3f1a0351d0330ec3ff602ca8cc353b7f6e762c7107184cd7b423449f6,
0x119ef188bb3dd0d32306976c19941e8664be687e7a69692da27da215a6f06d40,
0x211610e2ad4a377426fadf7068b0c1a6c299a164c1c1a603eaed944870d0b9b9
],
[
0x247fa7f022304a1994ff505456c2201ef9b717369498d3ffce446601ed9df845,
0x298ce0c1e3113bb935c7058e7772b533b1aa9db0c0926bdc8917e5605ca3ac10,
0x1baef1cb5509b526a42061fb53657f99b3232500e855192cbe8c940e068c475f,
0x1a6764d5943fc4a720b4c0a19fdb8c711984307287a58b9b5f9f5d58212cb263,
0x2d9e0ab5c06893dfdfd03481381ba86b6e6292df5609d71f2c64b2d9a79f809e,
0x15a67d981041b1f6f09f3f9ebefd864e779d3af08157786ac077505e50ec79fc
],
[
0x3fd7b19ef2c861f22f77ff810f54e277bc94eb76c02d79d986be3dcdf051c3f,
0x94cb4e83621afd271e41bc71727f0158ebd612239ac9d698b17fe4be05b7fc8,
0x1324564ac7bdf9e22164e9858d7fa8e368b165eaea3daf4eb67ee59c0df2e5d4,
0x11a63a26feabf87fa66bde66cc25a922c96382d76c6a7ff48f1537beaed683a,
0x25f16631bf77060f7ea34087c025bf135784319ef08cda2e31419ee0a529e658,
0x49327fa79d28c12a2c82406947f77f06775b0287468b3136877701dbe7c9598
],
[
0x18bd41239c3e71579a677443ecffbd555a81eeeea69352a68b67c8563c0c2a06,
0x3d880395be93c27d649af5fd142e76b33918cb8841d5a28173bd5cf7d328791,
0x5761b8c6aecb1a8ca4ea4dfc2c8376064a4a8004ceeda210a55240562ddc13,
0x8ca7b64657c3548f32bef5b63ad24288a41c0b251099ad27f9434307e3e64d4,
0x144c7a11da5a7c5dabae3f33fbd03cad86d18bc594c79a497ecb9894edb554f1,
0x230940dcc5232658ff9c29697a3fd416d170e8c998f1aa85dea0c42d79f951aa
],
[
0x2d78c3a5d28de9ff35bf0a257635196e5730ca7f40493277078cd75da8b4ebdc,
0x28eeae6b5866ad68e443bbaf91680db7d7e2b3037e38fef61b42cbccffceca81,
0x10c9e283159d58cb4cb2e35fde83a3ba1fdc28002ed9963d2a99f186178a148d,
0x1998270471e9361955446b0cdb8bea915ec0675f1cd648ddcb04303507a4489,
0xf971162627723f3feadacb28b0c104cb8f74de508752fa8d7c0db2af13de8ee,
0x1b121c049cd1159e289007e0c9da9995cc4bab4c26fb888ec3972a8a2e656964
]
]
".
(** constants.go:2489-2557 *)
Definition txtM_7 : string := "
[
[
0x2abd9e16b7b48289aa19cdfec726fa3fa15cc1625102ae511bca45f39d337e9d,
0x1fe9feb5c7f7c7a426bff032cd6a3158278b6c6b2cc57a871213fcafd6427989,
0xcdb2db9e4f9d732d217c5e3114821165d49e5a2d41556bcd53d0c4d433224c,
0x9664216ca565c1a44fc2b98347ea8b36904b3877f2159dcc999895adeb4d70b,
0x1463f51d4a4cb1eba16dbc115566aa48fe77b43c244c9988a3c658d2f56493d6,
0x214e41788bd2b990347c7f2a8f47612d4dfceb1a1e6da38165873df66ce51f59,
0x548541724f64e20128260899abe8fbcdff184a1957a9385fb715923bf0fc79d
],
[
0x1b4bc5885d1cfc8eb691875300db5a0c7362ae381898acaf8b63cad04ecb36c6,
0xcc7eabb154aa7955eac47a19f6437a2b8dec0fe9e5686150ff6e88b1a7b4bc4,
0x12f3bb29c972793182123f5c49306e16a3a787c4bcd9c798a131b70856d1cbe,
0x111fd8dfce2bd3b7ba0cfa93e20fb685abf76d77305857b8df30914e4849ecef,
0x16afd8f4c39038b8006a59d292aea84731c0f83832a61b82250ed90118e8fec2,
0x3fba82d3f783620873da94e9f4e84c8b529d76f54e4b5d7d4805272af9b9775,
0x21c5e25a6991364e59a205e5b01c811deeb095680a72928369cfd2de71b14f98
],
[
0x8a72fbb55dde3e93c5818571a424a54953695029eedbcf91eaeb012751c7f83,
0x393efd96399aa0726ef9af79be8b6c715e429906ca0d15076b5a990fea75ace,
0xbba9006404c5ede82b527677daf444ed43fd1e0dbdc5528dd2cd1f17ad73481,
0x19f53c0a592b3ea93497a511e56f66753598265b1ab6774da48eec04e4d93426,
0x2296361f3bf154efbab996921936e9b1dff8352711f958638172055333e07579,
0x66782fe3e869de2cebd7ebbf60fb435785329dfb12ad9bd1b4e46ed36289511,
0x11c5cc53f6338c825817aff7792a2efbce8fff171300d41455a2edac37663d02
],
[
0xf95359a1f6845d4921892f83e500bbb1b3d3763d8fc762400af039b0abb83f5,
0x871233835b752ea030cf8a4f43771296eeb33f697d1b0825db47d39ac9e5955,
0x17e4e73bf701f88d219acf1ca6390cc1e17c9f84b1713820837ca070be84a2dc,
0x19b683c39d3b002fc3523b7bee5a60148b1dbdf18dd1c318e6a541e8cf66a174,
0x1c3160ebaeb10f809f69843cf8d5bbaca198d1f8e3439be29beb92d909ec891c,
0x1c5cd6b23ef336be01efa37a27e6b7aae5d1643fceeb212cdff51588835fb537,
0x27a0949fdc9f10495c4ee7214aa0edd2ad8eef68f577da8b96f9d87a39504bf9
],
[
0x16f01751ce985328afde34d81619defb43e6c7b5dadf52d0f82472fbce7770d9,
0x1a02798f047a51baaea34fcfb26ca6afe96a5fad1d2db4270497b6e6504891cb,
0x234b8a077ef52b53a343b8da5b20cc358ad60760dd60276d485015f73d53d207,
0x2547113a818779f13e3448719c7ef100b8036bb3e882dd5e6456c35311c1bd5b,
0x94c66bdcff54382cd9213abe43312edb5b4d414c6e09acca24912a7635404c6,
0x2f3b4bf0f105f88e27248af094e29feed9ff3fad9a794e15830bd2b311539453,
0x1c7fc68f3fbde4a23c455ef0d0dbce0ce556a0194e6d552c0455cbb5b0c230e2
],
[
0x1c391626328457fcafa629f3e6d33e2555e8d885e3c07cecc8af1f4d56596417,
0x55665d76df3cd0fcb713c234ea79d06a31d6e3e4c3bcc657dba4c664d5a0da0,
0x2dc3fd77394b7b5ac1cbd1b46e6ded5b835d7217a4c50a487ae9a35a7fd45d9d,
0xcf148f8045cdbe7bb1013f72ebd4126a3e35cba9a970441ba8d5bc76943b0b,
0x2e883bd408c4c826d004ff777d7c0938434ab5bb84f3420e5d94b853b1746f89,
0x2f4085eaa9f80a69b739fc23f2fe4057f64729b311783fcfab3a0a36fc1ff432,
0x11d0f56fc00e7d85b3a2939fd33991dc8abc1ced0c3f3c530cbfb4500d63de9c
],
[
0x970f671b9ba35e3e3c642d1e0b8032023ed5bac91c2c1056f03965a42c5297,
0x26ee9691a638edc7c91887e302fc55e8e7758286a44845ad88fd7de3bb1052c1,
0x1668477640fab14c72b1c16ff0192e48cf882f12276bd12f97f82c6ee2e61e48,
0x3008421eed767a093322a09c3733973a038168cb28cd2e1f709076c00b869599,
0x228af6d425e91a783dd18fd89a6b38bda053f2f23c094b875f27cb3abba2030b,
0x2363603349e94f520fa1f98fe2507f6aae361934078aa59a16214c088185638b,
0x1b2e9d20d9b55deb048cabe1636f0e96363bec886679cbd91f332fb2bade44f
]
]
".
(** constants.go:2558-2643 *)
Definition txtM_8 : string := "
[
[
0x1aa4d470abeaa2357079129d114bab1170944f929fc178216ad847d4430f3f27,
0x254b8126f45243f14dd8211df41fe5516b35952d56c62678c148e73cdbad3718,
0x270712f18b1518fafe093660f492cdbc2fb70ffab31d8a4d8a1934be68792369,
0x2bfc3981a249aeaaec4ab9001727d32d4e6fe75598ee964fc85cf30d50df584b,
0x16060a17e1b11f851ceab20464572b3d78d582ea050014843101485f65ab723d,
0xe73217a106c402e4c6c166cd9ef1fd2a0b16ac1cb43646bc1c726f83177770,
0x4b959ca07e7182ca08f2351a03545bd7ab676f740b02331637ea1434c8545ec,
0xfc9cc95222f92715cf7476010225e14cc38f314071e50e0f3bc9ec674a8aacc
],
[
0xe1f4e4d26e9da5f8ee3deaf48b493610be61d7d3db1d9754feca30879adc644,
0x2089c597feaa4ca9a202edfbc823763100e294c9e33000e513b2a216491d474a,
0x107cfefa1e864045a668396526ed9f675b2bbf272ca635d8d3e8801099bb97d0,
0x21630ec3f236ed219f73cc617b9f8b267dbee99a63c528544ea31b27cde49fb,
0x2741203d66c523c7639ea713b20346119c961cc1e9659a458af74cbee16d71bf,
0x17b2092b0f634576b654c6de21a1a8d812bd4c01559fff83217129082e2b2b20,
0x68e8e63411df2b3a9d7c567f66419a580d3ba15bbfdd1226effa3fd6bd47b3c,
0x2f5a2a0cd0cb24896c94878a8106d57e82c68dcf1e209167a45ae9cf8570fed2
],
[
0xc298c14356a5a7f226c5a549e59184900385aafd8ea41d9746729964ef75f34,
0xddeaa906cb65f3e9c9bea6344dda8db90c253c0f7f99ecef88786fefe0e5cc3,
0x4b96a296a35acf415929b8784b6bba64a630d29dff28b628fc98ef708230b57,
0x28890a03199b727fede5ed0090ed69494c053c97930fbb6c52358b0d7d104c16,
0x2208c5004806c7aaf58314590bcbea16168fe62ec0497afc6bdd2938c12d9a23,
0x2f24d609cb23720eda55fae29ec6f19902c42d8bf904fb656202736d97b2eb69,
0x344d0c772c2f053664a7b9266b19d48ae5d2ab3d1c1a18150754ab4b836afd3,
0x2cd19b5c55bab1809e52cc9fc1a038c08935da19cfc563e7048d6bd1970a0c8e
],
[
0x19e070982d3ee675e1622ca20d13b2375e528b676706882eb8f1afe1c5045ea1,
0x1114c9120442750493d999d4dd45dbd4f3b75ab183209235396ce83d8ee9916f,
0x1f0465a9c133a1c6805d705be6b3ea9912a2d062c34dbef92de46955b83e7bd9,
0x1b80f3f439396c2f466b8e9b25765a014970455a1beaed7a6fa308dac75fb582,
0x1c01f6db435dc4885eef9cdfed193250b9d3eb4cee366674b07bdd194ff349fd,
0x2df183fe2bc9b8b75773fa961c8d4117e582a80b656af5c58763e7024ea4189c,
0x7e0cca1a35ed15fbdb619bfaecc7a9a8f4c51293927562acea8eab817c6b84b,
0x24ff2986781fe40ae61e8f5ca0ef17c5a5ea7bddbc127d431547c1f6a8f5cedd
],
[
0x333e2923992e89dee570a650125eda75a20a72e69e10863a19d17b7beea9295,
0x2e8b35a8c29e639dde8dfd49b4b347f00ee467863f6efcb355fa1534ef70783f,
0x27a2b7f5549e5eedb90105c0f8e20f0571ab7af0801f1bdd23eaad91f2229a13,
0x2a4bbad245a33e5d9701537f751410e4ff297b8f1d1d9098fe9c518c261a1b0a,
0x1f0e36c2cf9ac2c4388e74966d9ee7d1a0b3186916a08cfa306f6bb36d21e548,
0x15fe963f5bd0d92878c10a894e118018db82e63528afa4d4703e9881eda118d1,
0x222edf3e26bf74b2f503983189201d4ee8e6d6fad341d7ff50748dd739749df6,
0x12a87d0c5419f448419840e5e5a92d276ace00963d987f2a1008913d98a27114
],
[
0x1944aac72bf6fbcdec04361238c3c4d9510d5f07439a1b6ff41f652990be0139,
0x20e6cc613ae6cb0a518425f53db1298a7f8859ee20aad08320d0a4f9bbfe8512,
0x31b0afb7ab2f1d241f882178f7dcdad48591cc67905d651dbcafce94b14d073,
0x1e431f2b1b7edae4f8cbb5d307bf5131c352c2a215a870d739617f4b017c6d16,
0x199fc2be60e49e679ec2ede6cf3345dcb3b918e5b3e07c2cd8141333934e178f,
0xaf594dc4030e8509701fbd3d8995f73126ad72a7af0fff344eee82a31ce77ff,
0x2d4308b4823b465db653d36818181209d23cd12f844f72f7548d49e55055a601,
0xaf3ceff2c865a901b9406d5d9b2fc58833d642f46c6493ca030ef595061ec6c
],
[
0x27d802ad019a42fd04892ad167d9e83596a730605890401319661675736359f3,
0x2420dd1281fc0dfac176a752d15906b55f137b9cc320d5d5daa9df3f3d43d3e6,
0x22e0323bbbdace5fbc74a0b3dedea6e1e3bf10e84dfc71fe395089ac197af744,
0x255639889a259ebe59f74a8fdf2efce7fde1e3a666b35d8e6ec601d4d0b22689,
0xa38d163b8a2fa3092999c1797b1af909bd971a25a656baefbdbdfa3628e678f,
0xb8e857d9fb1d554f3a4ec307ad907de7a436438603af1b28d4e4ee379960ce7,
0x2e8e67fc85f9b4d00e9e1197b35bedf55afd7300a4c370987c83c15cf73cae3c,
0x27f42d86842f4d8a8c3aff2f47ffc1e179f097aaecce55bba0b0fdfd5b190aa7
],
[
0x2bd05a040a0987ac6bc01f67242d54b7a2c527a970ad2815b273471eb9623e73,
0x17bd4f2726748d99925af9a2f2929e231c1869428c13b1e397bb0099191723a3,
0x1eef36d62f3f864eae67c63324e47a6344e33a2d5bfb82f05bef9900c54e745a,
0x2d0d8a814cfa16c2323f174be2dcbe0c295829fc59bf2a89f13b4ead0eb056a8,
0x198949eef2b27c2b9c3d699e3fe57da3d5b509c2b670afce400aba1aaa9ed51f,
0x7ebcd25a10e56693a28155fcdaf7b3519d9e0e08241e21789696cb76ee06297,
0x22f1bc4ec138b596128ce5ee5b8184964cc262318e17ad21d45c552477f53e61,
0x2b6b3bc340d4119e57831e4a2187013f1216ab3b639945dd92a984943241f1d0
]
]
".
(** constants.go:2644-2748 *)
Definition txtM_9 : string := "
[
[
0x190f922d97c8a7dcf0a142a3be27749d1c64bc22f1c556aaa24925d158cac56,
0x607cd8ff9b889773c9eb68b8a4366469d470cd7c6004106caae95c10c424419,
0x1da524cff60b64856dc1f5dde0ff62da7b182da26908f6ba6e590adebf91b40c,
0x22f33eaee3c481e65801b761a72832908f066fe21dab5fa5ec1d4c6e99dd6dfc,
0x75f84e9c719bb8de8e61083290daff19aaa4337454e5ba804257787470f2f54,
0x2084be9a57e9adb80303a8dcaffd4bb77adb6815168b36a1d363b38425437135,
0xb303449f1bf4b92d2cbc26ab34b4215b6dd7af010747a705b2a6e3398882922,
0xc099bc68243537203f97254f08dfb7efc09de8f96d72f3b3e0aaded45e18b4a,
0x1c5fd9060d4e0d999264429a5004c165570bd1675b09f977708b1ca48e616388
],
[
0x1f8d3a9d2d31ab32d9bdb6375170dbba89f6f8f74d16e4fd02f3675d5fe2baad,
0x2591580b73e7b5d5f34d9fdc0cf7fe3de7f6a18a255e4376fde3eb31dfa51d79,
0x2bb4565893b6ffc5799139cdc151158749c2c65db48672abaf24c5b3813c0e2b,
0x1c5ce77776893d48147444b9f6d66a4da29c95707de832756c739eab8e87658f,
0x175505391c619b75530fa83e513184381e603d8449d1e070017ee8ec0a4d25f9,
0x6ed1d14dedf763a3065f27e7a46d7fbf20d2b4e86a0db86692a269767d577e3,
0x140cdda33bb7a79b2baa851df5ad459e7df569b9f2c3da542d3b8d5b76b356ce,
0x35e9ecc464cb431cc92c3356e8a98547e843ed1324c1e971179fd1ad9fd51a0,
0x129f06c930edd36fc2fb7044a6332751a2e3bcdbe756d883716cead6bc7063cb
],
[
0x230c694139416f40422d713e13c056c45c3c631b346854523970eaea58a37df4,
0x93cff12150aecb3465c4c99f044be85dcc1eba21d429132c2260dd3d12ea441,
0x25081a00fc20ae366b1fe7ea6b09e62a51f6fd377f608368c12ba4e3bf89935f,
0x2ab8edd22fbe2a1cd3ce9a4212d0efb282ccac28af4d876fc946203070c920bd,
0x29c5ce97710c1578a0990d862cf881badf10e4f6bde629199e803cd1c426be4e,
0x1324544a54174cf7b3cd8ffc4b86320f2319d9b88c1779b89b1916018f3fb9b7,
0x1d18b25aac98b282e10b5a3a74ce5caa169a5c30bae52bba280ed517f3f82fef,
0x2f35e921dae87f1284c0c8ae737dbdc4936cbbb03a03a5918552fe565270a8d,
0x14a5ce1603228d6e6fade57c1da536659ba46d1b25566f12c28debcbedc5b4f4
],
[
0x2063a461ad06315ae5992a53a14bb598367624afc2833ccbb83af92ca0f6a334,
0x59116da88a081267dd888204fc6fb79046c3297ccb65f9e0fe0d50b4db44ec6,
0x1b43719cd10b60c5647c097d1fa84b8f3c12c9c475ade13b388c7ec47240be11,
0x26e49154acca24424d5f8d29f650f9824de82eb7887329cbc83a56ae01dee4a2,
0x2caf86cff60521ccc5ec6e2e2c83b4707bb90f948644bfaa8f80b0afcd4cde10,
0x2e923ea46d492247e12e0a7dccf6620f5eea6629b7532b3af246809398859633,
0x1ec6c32f513b8f30c7aab42e7d91aecbe54aeb188a84f8ca46bd7e9741b9a389,
0x23a72c27f4f5e6ea5325d5b368f98b40693b2db1e8ca3d096739753dc5678303,
0x143617efcdbbc0d27a091f28039eba8abb39392e2a462850b1f9cd8532f5075f
],
[
0xc574e628f84b6ba9d17b9d2bfd4747e06dd68cda2383d64ce365927098c046f,
0x2c948497373514e7d9846dea9ddf5755337ddb661043d6c628cecb8f55173bd8,
0x22dd201ecbab94a2ee393796fefcca63aa54d9a19ab9c7f20a0bedcfb9d191f2,
0xbadd77f516d4fa321d1099bc1e51909001591ad9919f08ce9718aeeb2bca4d6,
0x24f92793d67638b4abfdf48ce3b62ab5d0e1b250dc274d746f2f7d0544185b62,
0xbbbbb87eccc91d5fb07b6c55088ca514d68ddd93cf31c8ed2d2cc7f23b22b,
0x89beeb21c346cb9bc182aa2b70f853f1a2258d56893ce5a948d9c645ecbc9bb,
0xe07b1d22eed54fdf966ffdfbcebb653b5dac3b2a91f50272876efb17158be2c,
0x2885f2d44be0ecff57d92a4384edb5bebfb585bb23eae2a2ea50806bab8b7bd7
],
[
0x276428d88040a3e0f442424d2ffcb8d19becf3fb6ca02c1b5c61b5ddc53ceb90,
0x2c2729812be9ed432e75709133119cb0a14e1b6ea31c1279b7c3e495deaf108e,
0xb8e79838cd30707999c621621e77e69c0f433d543b79c668cf379b6623bac84,
0x23671c5d1fb556063a64b5f664340936dc5ffedd4bdbaa2e96205704da5864f5,
0x2809dfe24c7fd7cd49b97b27150f4d38a340b60f0733fd4530cd4269b4811e4,
0x26010a3f5295bb4481310cbca5384a47af0f9905e4c76bf54b870ef0ffefa1c8,
0x2790643a66038cce4a6488847d8d2da2eea84961f8134b1be36947f803527e67,
0x5fa56d431d4bd09625a86d3623464dc90bd541ea41748f2026f65025ea9d2f2,
0x4715db6d86b513d002589f1f9522f7de3b1a8bd702c167559ede97da2c0076d
],
[
0x24bdf6101b2f223174e869d6aecbe8ea5b04a14c38fdf1494393cc6fdb3e42a5,
0x2280d6d4718f9f06b551a988408f0515070e455ed63377e910be087fb79bd191,
0x2082d5647658eae648936cefbedfad2cd0538572aa6122ca68ccced68f432f4,
0x20d7202ccde24901d6ce2d107e79e1fd78d6c9398ba7a4996f116adef14def3,
0x26709688150ed035f959687edf7747ee8ee946b770173dbe50390ab8c08c5f9c,
0x751a4a4af246255ce412c4bb47fa34a51b8628f3cd902077775c8fa488e7519,
0x159e25e00326a76f25c1143a5be6f53fa51ccf368d9974cc6d93cce8eb81d37c,
0x2d6f3e0e98413d5d6a1101b245c9e711bb2e956e27a5870784fd5403b39867cc,
0x88887966c079d2e689a8d6d7bd913e92d326959bada59b99a653feaadf6c467
],
[
0x180fca184150c0e354b4b3a4a075824d4b68e8274943f4dd8b0c64eca25dc68e,
0x1b1bba125505ae9675bcec7c9af579c5cc83533c9d555be398afa09cbf95d6a7,
0x277bae2fc597a536adbe9c24bc8ee81731eddb574c6a5142c1c5a48c51f82e81,
0x1d86496995f14264e7a054cc8224900368775c3e5ac6b5f54285f4a73c2171ae,
0x1e5ae4c295ad5a17e00f973f136f1230a6fb85637631b306d3705f80effac24a,
0x28d2351619ccc6fb31ad4206e2c064bf4d9b2292b28463e53e4771f10670ddbf,
0x2486b884370d49a003fd041e800f0a898ab61b5e947997461ee3284241f3baaa,
0x213176bc1a04939fe7d6bc30691aabd6152ed24f309bff3939a0d91d54c67a66,
0x12ded41f8047da3e6c22bfed3ec5bb52d027e560048db4c0f96ca9fa85e17bc3
],
[
0x10726dcff87299c8532159976607633f1bc2ad24453c1bab26b726b82d756ebb,
0x17013257716d3cbae28e1c272cb6aaa2844136049ffbca05ca201523032c64d4,
0x30354c9f29c920c05e99d7cc747510e76f7fa69a71594a290eae7293c5a48441,
0x136961746d34fd196025173c4d79bf8b3d1d05291c584928d97258fd5fb4fb4e,
0x2310e2337e4d53c1635da18a2722178d55af583591bcc317eba842df247deaa9,
0x1815e4f7b40a7027878640a6cdc4b2854300cf6fd4953c2ac2c77625ef44ae04,
0x111efc136a9dfe0ebcffae8943e679cc0fbf62fd0ce03b409fecd932a8281b10,
0xa5a1148dad4562eab18162b3914b64d5753e9617a5154e93f7e43e6860687ea,
0x1f47c67a4325672f17b8bd1ddbd80e4e9e6c62419a9c204cc7e8821892431aae
]
]
".
(** constants.go:2749-2874 *)
Definition txtM_10 : string := "
[
[
0xb1e797eee3f15b88ce3a1fafec88da1d6329ac3c34712db570de886cf569098,
0x1abb95b6e33243a050e563b5c4fd059de5513ec28994a6f60e57c98d3bc8f586,
0x110d213a836478aa301bc1fd4edd388507d87745b3abfba5bf282afd21f7242a,
0x18edb2d105bb53b768ae0137850dc2d2bf6d1303a1f8ee4aadf76d8f81990588,
0x1e53e92df6c53ecec4c0de5b07dc4c9a0c5545f2abcc1fabf4ccb84a0a6e2c27,
0x10fcb817e10f69f7074e64c393b807cdddf33c84a8b5cfe33f44b73fe18c0e36,
0x2b1d8c11fc652c593543b6f9800bb7d0c9371dedb96f08bbbccffdc6cc44db98,
0x19f473e40c05676d5f8d51e11336e9c65cb32828c397cc8125f1dc667b6cadf7,
0xfcf3a4d9c6c3392de1bdfe25cfb86817ecb80c51be17d47f79750201f1fcd01,
0x23b02d00fe2634889673a7d04736fe15b9f62652b1c0626a19af8d6085d70822
],
[
0x2fe429db8068e61b82624f25766273cd9fe6368ff097eab97aaa09be4c630e27,
0xa5b604c958bc90071ad10618b1772599e0c8dddfb641131fef39daa58a39923,
0x2cdee0c635a4fcd9549f0f91b4f4a9b628aa7319e2eaa094a693b38b5cf9a242,
0x2c962d7d54a98c3a82a638d8c82450813f42071a17c6c05f470b44958f57ef15,
0x2bc761185f59efb7b67bcf1d3e54da00daea067fe49e3f1d9334e5470438b454,
0x2e450d1fe7773c9889a0be55e44453bcc844c94b56fc0bb806eb9982ac553428,
0x25c0f87c946f375e341f72f6a8dd63a94e86f4ad182715bcfcbf2b28df6b4a0d,
0xbfe6fc08e2a2e1b8911ae065b985388fcd105a490a4ab943b25558cf3d054b6,
0xc182e438257c4ad7e7b79c3b68d60984e507ac597cb47dc31d913a7a540fd9a,
0x2ff4d0b8798a82667793533730083c25223d589cdd079362f1e8c2e01d54476a
],
[
0x2e750867942439083365d21fe760c7dfec9e3593c67de12a4255c6b01648b690,
0x24e82df5873953792baca345b7c19f61039adeb1190592bca18cf4f907c1a6fe,
0xd60f0585755d48577b465746de8e286e49925150f1784f29fb6b96dbd8f0ec,
0x1f495e93014314988dace5e4e867f5109e09fa00fce87929d1e0ece95a449345,
0x124331e0ecb1d9808a1d91efaa98950abe930c46fee5a30d5ad07976a5bc0263,
0x2f421fcf54d77dd38930cd69076f9baadd3d3f1947371215a66c894d637e89b9,
0x543b2bc66f3b2d93d4c1882039ddb37c70c0b437ac23ac5bb9868e6df24485e,
0x203d9ee6462a586914fe7dbfc1bfa29773b7f9b3d63aea4120c601129c16660f,
0x25a1ecbd7e7893f646f35d3e07ee997c94354737884fe6c26ae8155760db8aa,
0x1d897f60e87fce5ceed8da7f2f4a63fdee7ff9dcf179c08e05e9e5cdd8238ac7
],
[
0x23237985a96b177ff7c01486ab0d603d29991b8324abd6b07dbb96f5c21ba17f,
0x10e3349eefd3a112417e110fd9e832078e54b5f4537cd018aee3dfbb90541581,
0x2168dcf216d8369a626ccc61453236a389d02519f3052e87eff9ccb8aa299c46,
0x262903f36acf0dc055f610397df0794fbc30927ef185c6356bc33e5c31faef9f,
0x46887724f29321895c2ef8bc0cf545df773c04baa097c352a4165395cca786,
0x13276081db012d1d4f4b7dd2d8a2f8a5180d2ecc33854cdd35f9ceb07bf40d53,
0x2dd117218538e8acb0301eb40adfa2435f5bffa8028ff52f96a99d77fe927066,
0x1b912abf2e1649ad4834ca5b2a3831cc9c207d4d08e4bf274a79dca80e52fe24,
0x20135ff263867f708ee0275170cc9788689c088b2933a361c775cf430748ef1f,
0xba6d4ceee2182d3f2ab2e4a3ad08fc31f7f4cc0fec91ad53e92bf8ada3e278f
],
[
0x15ccec857b25934ffd429af92c910db31d00dc1c3fb83745a31d8131ea5baa85,
0x165adebe00c7ba019499018c96f5c5870eca5679c90c843d9527184a525fcca0,
0x3530dd962ef23dc16f79b28c1fc1ddafe9458be15174cbbbf3a806de5f63cef,
0x1b7e922b3dd503e6441ada966c8b3ba7b908cb2b98b5fbe1e4c2fb982455baa2,
0x247460ad4580a18639eada69b904c91b19f7d4387435707696c40bac3bfbdd33,
0x144d5be38d44c5bf8f3c5735334fb1a07c13702d86af39ba0b4220ec9a7568a2,
0x269b06b31e89ff132daebc200efdc8ab068136fce65f2fc55a1dcb939b7fc6f5,
0x62caa3c9fd39b69864faf701dc8a4588571cb31bfd5c9c3c59dfd97e99f701a,
0x20e160f772998a2f7d0064c7efa15884ebc6d8b71821cd5336e2df14341c95ee,
0x5ce94b8e9a60b28947710461d87c7757246266ae8fa5d3af3ea81776b5b8c07
],
[
0x17102ad2d98043e5509e76c331e6b22d5fb62d074760806aa675764660eb56d2,
0x1fb81218feeedf4e7e0e33dd8ecbe62d65c6b7d4233f32e073571ff862d89c3,
0x1cedc6d4e1476741c1099557e58e642c42892aa36e2d0a793f670781a21b0dbd,
0x1a88ae2fde12ba32e5f4eccacf11c25bc163bdedaaa8824474cae5869e5ec20f,
0x265412a4e3b5560aba502d20ed833deff707b7d425ba3c09f3b6392b6f1f4339,
0x12691b599d32edc48ae99c7a73abd59e5b18f4bf773fa1051cabd2c49aaabf6b,
0x20d4401cbbf92877ecf616d7d28551cb0aec552fae9518dcf9218c38c1a0bc90,
0x138c03a2ecea183cb8f265eecd7e93275b0bb98297c1545a72197dc6ddd9335f,
0x150df11291b680e3ba925a0471c7fbb30e704ab4b554ea5d8c07b70b2b96202a,
0xc346b046af03cb9048c29353e1107d6b75e590bb2d422ea83c09a5da1ba0c65
],
[
0xa4ecaabde9d1ea11c81dafa8d5d4869bee7ad0bf4eb78397b71b8f989cf9812,
0x1be2802fbea51003aafae82ff4499d1158377b108f8b020c82b8460a8d603afa,
0x269c8c139a4f61e16bfaae9e8bbb1c69808c9071083b0a339dff9e4904b443d6,
0x23407728269c70fe712b021915059dc8dc2124ae648e2cb549fc76362bc2b97d,
0x2ad06fc9f81684542e0458aae19c0a7c18be94f1de3fce6a3e5d2335a01e90e,
0x578a55f0fda29909b9f850c3d74be6668e4444ac691764f1644a626498218e4,
0x2ee2da24b7f8e7035fb73b08c3414833ffa38e14b1faac198a860a5767d2feed,
0x11589959fc2493292fb6c50730e74994ad7cd6d3533c3b00a57dae833cc701e5,
0x17572029e8e897202d0e65c2172c571d4b91ca856e7ad3f118ad922127b87054,
0x2fbf8cc6ec7efb30106423f2e67b0aa9403360e56e88b6c5cbaec34a80bdc7f4
],
[
0xec1821648fddc448a1512aecc8ac37714923981940f5542737a468d4d887c8f,
0x418081de8c2958355a1e45e28ee51ba2c66cad04835f4fbd81e696de6398769,
0xea7bc52503e2039d277912e022fd6d0ded5bc687c6ff97194976f3a28bd30c6,
0x12ab318626d511c23d28baa9fb5b5802e0ab95e3cb17aedbaa25f4d084cfda57,
0xd1e34192343d66fc1b6591cb6a3b0602b0835a403c7227dbcbd72fd8000c6f2,
0x12e3b04924b2cf6e407bd26b3cd47bca61d6ffcf7efa1aea1c2e0d8a49de64be,
0x6dd89fabf92546847b9c13b3a36bbc7e679c5bb0dd785403f3ff49bbe61c8e7,
0x17b9facdbe747d7c5163ca00e3b0b825d012ed4357604e7185750d677c6b357f,
0xaff15650b805bff6f8b3515d5e29cf914b7349af8924e796009f8a4f1b7264c,
0xd064e72449efc11d1e90b97749de3909490b912bb1f72f542f41d62ab2d847a
],
[
0x255a493aa4becd9d137eb76941c4120784c1233f6c5fdf5d65c0832af543e415,
0x1f3e937ab29f3a88c6fe438698a7198a5209aa6ac9f141319f3bb201e7fd6716,
0x2180b9eb156eb33cad1aa750ea0fa3ddbfa4127296e497f86e6441e052a23b45,
0x1cc69d8f34ee877838950e20a9d4c4bd3e9acaf3d693aa64cae04faa225a2e1e,
0xb565179887ee30e381631d8e5dd357c70ee2ebb410617d2321f6d8537f98970,
0x1162a56ed3bbbb4b6760a16a300ba7202130086da4d5588a70926423ff8c242f,
0x1360f719034572b59410c529b62a62aa94565654597e42779f33400f1d17d652,
0xc603d03f92860da8a68c6dcb1924d1a45099aea50f1a362edb2f2a7ddfe90ff,
0x1a918fc117d9a6445e363ee5833dc01411034b95384d98eee47ae896f92a7d67,
0x2a88e0c35617665f3cc2fc77d90afc7a8d1001c71debcf2733ca0c71a19e1ea
],
[
0x120f44670301b1435249294d9833d59e01682af4c8658719727678fd9ab7ef2e,
0x113e968769b0ea32cb7b5ff70484aacc96f13dc2827a8e5e611695e0797fc3c,
0x18cd1471430adad31e45b529494fc8a7e319bd2fc0619c99207dfacdb657bbf7,
0x23d0fa965e920dfc530b52670b1e32e2d5fc2821fc918c0844a003b7141825ad,
0x2ea6b32af37cd765d728ddefa30918902a21e19b291400854f56393c56d69460,
0x3340cacb04d5a85614eacc4be3352938baa3fc714c2575aa9d85f739113c50b,
0x15ff827e034c02a90767f0152840e7fc6db983e496ea0519c0ff41dea8180628,
0x5d56f0c844d169248503135e4deb9ffd6329d54cfceed4b947d78a568681147,
0x2e5618411efea30cc7de310d4872597d087c1e122e02ebb117db0c2dff04fc0c,
0x15eeb3e0541bcf010da0c47adb12f6df540b974d439c93e19ea4d02f9975d446
]
]
".
(** constants.go:2875-3023 *)
Definition txtM_11 : string := "
[
[
0x26dba58ade8cda188f49e52fce7167b8f219dbd924d7786b0f98fb799fefa2e,
0x9813c803ff84a3694eedaf4b1c2172615275dc18ca654c799a70440946ccf0,
0x202973f7fba5bd21ed58bfe7156d7b29010d41090f63f1bb290c1d5da1ad60,
0x12305eadf64dac24a7913a62d95aefd45f48355576c671e56fde9cc7c8344ffd,
0x25c783ad66d6a1fc6c84770bd637f6207097dffb0378d7e0395f8c0b86b505f9,
0x222deb606f13cf28c73a67216d88b16f5958d5d292ba10ef3bc2c10f5a0b613f,
0x1614d025472771fd870a9e9d422b3571c5494e7d679824d8fe1212177d5fa2ec,
0x1358bdd6b7a51b1f5b5d094dbd8ee086ccdcfb9c27faad0806e8ef718d0e2b1,
0x1c2007eba4d1629846bb69404acc84565de5d24620f75cfcd9f11feeeb3f3748,
0x22f49d7244077e41f409c0b353afd1696e3aa15ffdb4a0bdb883ffe7a1a87217,
0x1951523a4270c54403dfe3218fd3d4ccefa43114f1b19fb2c2821a4374718b9d
],
[
0x11a131a3778c3774233bc54096419d463d3abbae18322a7e77a511881665f93,
0x1495af03dc9180c886f0e1bdaf9d18e32e6b0d1b80370e7cbe5745dafc433523,
0x119344c53707f00243983c6d024fd49a0f8af80e5871933e58ff87c3a1f48b93,
0xa92bd6a919d1605615786f2efe80743ca57c10ec80cfb926722b5bed408b79,
0x1c7d3a92caa435cdd974520bb6fb6cac81634cc9bf4e534df77736e06d768c3c,
0x12fb88a0f6f749d68da9250d5adecf088442827248d67f989fd14b5c9cd4d4c7,
0x2f6c4e097bb5851be12bbe2c712c2fa906f310b78048d695b4aad301ffc0d268,
0x1c06c782fbc0980b9e493b29a5e4a04aefc668cd4255d6cfe208e9e7c8b9a1c4,
0x211865b7f9c1c791a33d703ad3280f69756324349afc8912a19b83de2cd06a0c,
0x25542e07c1c13979bb14f8d4ee93dab7a3dc750806cf37f2c02ff53b4bb9e66d,
0x12b5a09e1e95e0d01fbcd234fad473d8ee2ba976fa22827ffa6dd03c8b25a64f
],
[
0x2a18ab4dc4777e13cb8358c1c423153570d1cb909544243abdacd4547c8ec3aa,
0xd95e8cf8a66b56c32e7d11e0107e41e1297122d1acc41332f1b49895a3c97fc,
0x7c22f96f2f55653d04edc63150567a7a04609b0b79eecfacb1485dceb7bc873,
0xf716c54de41920c401a62df8f9186e19b9523e98637a5b113d61ccc30ba0213,
0x2cd68fc31b67dc45fb6b16f42b5eb89dba2ae7e9aa50c5f1915275a81887190a,
0x66292e64e6a2c64673aed365cb50f7bd4e1d3b5270f6b2e9982590c3f8400e,
0x8a1ef65f52128eb3b22df2b6aca30509b0af8af2f7888eee766c0c24871188b,
0x24529638ebcdf26de8816287fec6370614e112e10c039190c103a75ced11b426,
0x12e4b5408f48641951739ea27e521067240b82aa51a42de2d4dc1e8225908187,
0x84b88b1ce4598b701cf96a3379a02a3157d4193c8a8f1157459f6a34ec32fb,
0x2c184e904d7bfd368d4495b9e3027f9af6b9313c8f193f929ac9e24d10d7a36f
],
[
0x16ebd782cbcf6d63c38b87b27db2a4a5af5847a9a60889c4cf6aa318d6866b1e,
0xb05f16108c4616a973b01d82e50d4fc9dcdcce67d2d21f852816bd234e9872b,
0x2f394cfd3e442503c3a22512aa4b76b95b743c7076ca4115a9fbbb7c6b07ee5d,
0xa157e244f939125d57f9c8e66f7d88ec0fb3c05b90f526bac0871bca84677f5,
0x1d4567c12db648d4a9c41324c0329325b76a07730fad72ef9e490a748674985c,
0xa94a2d7c4093c638823b095733f37176d7e747ba24645b515ac2a241ffdda81,
0x2f6f14502f20d958a9ff23b696cac3ae24967517ae8b2e9592daf451840bb98e,
0x12641cc3cf50ca67bc93bc8c19ed89d4613e9e281a51cdf313cbc8111922242c,
0x2185c7a4ad8cb21f19009396f134a2c3fd614d305e475ddd19f26f6d4b3f9ce,
0x2f6da385450911cd272e13601e7ce66c2b91d809307492f7ee578ae34d6f5fb4,
0x16fc48e55d64d83010ad573377ea2422397fc3a7e6c88af808a566de0223f0c0
],
[
0x2b7ed47fac275d34f842f09b01ef9421014de040c26a591595b227ba7bc6fb2,
0x230b62315b30bc49d73dff8a9de79c620e03c747b14c432f170715e588d605aa,
0x206351750037bdc90d4f3e7918619fc690c2b5857f8bfbd86d7c001e4cf2ca18,
0x2218be861d524eaf03b9420b1368e9c5aa7cefee72d0e6ef80732ee9d7e6e2c0,
0x69ee4eb20b4860d4af91afe1781338f53aa354562ecd873e0e625af70746f26,
0xa226128da1d9bd5b329f55f52c75682def3369ab13359dcb7d212eefca86229,
0x17ceb42a19de6dd32e3b38cc2990e64273b52a5618263eebfa49d84518ea3bef,
0x29012deffb112eb14034159c59162f866d4a1803b4d192a4329359f0f903266f,
0x9c4b2f61adf245266168cc918e96f7f8dfc35bd3df7b23fc641ef01bcc71cce,
0x1802b97e54bf3a8978632cbe10e429705b03680325d26ea190c0f1ebc7362ea3,
0x2db1ac4c2b1c23a00027fdcf0f663af896d87415bb035b149d28ad3da98c6fcc
],
[
0xc5e49e319fb9535073f07f9e055accaf3e3f24a35dcb46cab67dfc648efaf30,
0x15d217a31784741048f326e155af96e90b5aae734f06779e698864039c92e123,
0x1accea09c2bfd17f4061725c712fd1976a07e773e54d906da166215201a58136,
0x2f9bd19d0c8c3887a7fc0173f863f075e66b183ad89f13704930416e1d5cb7ec,
0x6cad0c2bd438c4dba2ed64bbf75066e731484c36d1f6738b6e98601e9fb498d,
0x1b5da83966361586e8810fed032435caa80a9b476db21290474ed1977fcef22f,
0x2adbde5c7b73e9a7e22b913f99e40d95e689c65c428c2397cd273923cf68ddbd,
0x1a8b8ad1ecb6cb888273a90bef8b1a2cfc03dd44e0b28b18e1074e404a9e0f4c,
0x281eca14bbc3920919e001150451c3e44ff18e1dd1171412ff5e663d74a073c1,
0x54cc81c7d1d59581ebcd26b16ccbdcbf1968d77f87a2081d13054f51118f7c,
0x170c05a5f8a55d5c9fdc5e8238b367be358917a19a28b4c47e46f3e73d42a085
],
[
0x161e4ae5b2d24cd638ba5c32bc2317bf90d404e37e003f1055d9a96e406d30d,
0xaf9afbecae1761cc17d44b51ca66d1dbdeaf341e85f1082958f9cb72f7b55d4,
0x5e52c0ff8c04a8e5e3c7eafa1d0902fe63e35898934b00f4333b38fe614f913,
0x14eb401c1084a9ddcd5d0092e5d1a299aa0f55c351545c781703c01ce87d6b29,
0x1e0e166d734aa614c6b53db4f691179841a33f8105430a3ee70abca83ba6ec6e,
0x2fa75deed281db734faba5b70eaf57962f93e2eea1d3dcee34c81ab1e9fcc0ee,
0x14bfe33115df293670393e1dc8da4d6947acc4b60249e5b1c8cae376665cd580,
0x17ea198f3ab261da000152f26b0eb0ebe088a709e8b06a18a3dc2108c2096864,
0x533e8a454b8cd6df8d48fa9b0a9cb2952933e1a6b1d423cbc54d0533a72599b,
0x19681b4242d11e28aa72530cf33a7d15719f1a888fff625e04652c77ee2b2de3,
0x1eb7f6e5520215c15e274355b19bbf71abbf04aa426cd07da536cb3f909f6e57
],
[
0x223c7fc6d24fc53d1b428edb8f1c52d20ceec592187d2c7a6b0b147b6292b81e,
0x1da4f4e3c6790ae1b89c4118861d8ca2a50cc82a4e7f1ed3c5ba8cb944ba4689,
0x2e708baaf894bc5835e5fea81227fa8cfaef99086d12b0a3a7f3f85bbca61d28,
0x13fe23be24261ba5b92d363989f58e17fceed4a858d1c61fc2cf2b71dbdb6936,
0x1c879c9428e19607d647f5ef1415e76f7c59fd01e52afb80486081851f9a5284,
0x128cb3150b15cbc4faab14bf7d676ef3682b52cabfc8d3419dfd98109d19ecc0,
0x2bf523cd8aa3be20ce7d891f8727a7b24b72a4d4838484de842acc782fd8bd32,
0x45aaa99ce1e06a3c02150804a91087f57a43b79797773e83216ca969e873380,
0x284ccf70859547fcb9c3c7b64cf0ad62e51726ec81b58eb01c1a1f8ec7a9eb70,
0x1abfe4b1cf5db29d4078e5289bb143498abbbdc9af56720470a26a3dfa2ba855,
0x14111a74bd24730c833699eb41b38f1d4ed16fcf0fecc1655b76f2437d4a0c9a
],
[
0x1ae060e39b338d09845e2e9ebeb70bfb74cd4af926217f5732be2b6cb7fe72a6,
0x2860aa52dc2f967c0c1a0b942ac81e02189d031430c11a919a5aa895bcfb6151,
0xac23f00ff015baab1c8be9a90943c3c72d17818be7ad427c45eb3ff1828727d,
0x32fa2f166622f057f61a9405c9256223cab2ba82c9495607921755ab018f690,
0x215c0cd4e3f1bdb482b93e571879d7931be90023d7a220e8f93b21c8add41ffa,
0x52700b19ef6d42ea392e044a094cbfc308eea1f72f2a3428b1e721bfc32c6ad,
0x33b93a5cf15ffbafa2726f2527824a11af8e42e01d3a7ee159b273ca0a6520c,
0x254e3acdbc75ac592679b032b65a9c91d2e092ab5e5719551b5da635b13e9471,
0x4fa5620a2c057dc552a59fdefe50a901068190fdc3df8761991cab50a01a449,
0x1d2279673f6cabf0a1c4b8eebf8e9c78361680b2e59d7ec19348819f5b3d5a14,
0x2d46b48e5090c0c56a390de373f4c9a2008db311fe31063cf4fed54629113585
],
[
0x46191ab41e93929ea51f190fd4e773ac8d5083328d4b2f04828dca3e69098c3,
0x16ff33d67c85121bcee7d81cff1618927f1c92b4d1d21c2a07b6ae18b2b7b9b7,
0x2134798f4ca7fb9928012c937f37de87432b8665aeedf373e7ffa6fe0c13d00,
0x2aeddbfa245756ad1e1658629f747b8da7593b195cc950324f95edc9eda42aaf,
0x1f41fc67ca1322b37b7aa01b631fd19105281f6c6a4d37fbf68fc1b5f62802c6,
0x22d1e64d4ee15e60c459d851ef9f3495e937f5a90990382c97867c45b7940071,
0x249f416fae5ab52a435d65201006dd8ae8d54266e4d5643307551902423f7cc6,
0x12a996abc8577021ac7880c16f058d9e06e9511187f0aadff6bb640e4316d26c,
0x2d2640a74ede9af6c9888e5f68a84fac92b13337dad8fc6152fab34b55419908,
0xf246d2fbb4e1217f09631fbc8770827c36751e6ad8d6fb16810e3395143ad80,
0x15f30ebdfb8b8ee644241039a26b408dc7a8de77f2cc6fed754b703ea92dde53
],
[
0x14ba1b5383e3733c63d00c32c2bbffd8e54507ed33bf7544c86388191eca3e40,
0x1ba0e835f47626b0d82426900c49170a8be29c39d90337aa5fc10764e2321a1b,
0x219f5e28a5fa52689d2b7be432624280c940c9bf9883c1fb0fe929f78873c1b,
0x123a6055681023b16570c70fcdf3ae8e387a973690b9e6761be22f9941d7ef76,
0x1dce36062af7e4b0098f5590622ced7af9f28e88d476cde1391eb30408d5d266,
0x252e74746677fd7584ceb0f8aa6936bd04f9528ef600737e9913fe4b5698eb28,
0x19a9079a9897a237074252767912bed7b7635ae8ca0ede2dd3a42a75c1c6b81a,
0x777edef4d91520fcd490a22dc569a97e540a0fdb527b4b1a3a854fe346b8e7f,
0x121a3764269fd35cdf1e621c3dc6318f47b862380ba00357849d8840059463ee,
0x2f80ca151b077b50767281ea5d4c1f7457f8da444dda16d8149bb6c1061ed0aa,
0x1ee950c45a0c2f4a4b64688a7935ed2b63d4fe5b414afa05c1a284674409f165
]
]
".
(** constants.go:3024-3197 *)
Definition txtM_12 : string := "
[
[
0x2cb13179d6e8a4ad1b9fec37376253cf64386ad905e240575fca86539b272dc6,
0x1f930557a284998225f5f4e4dfbcf5ac211f1b12d91b0562ed3d63285d7a714a,
0x18e8222f6907da5745eeb9cd4a9e62f28b8b710aa85fe729f9ea73a3ef0099d,
0x180e924d757d0be4066feb146ed56212e38acf9df4957432653f370f905b8b07,
0x2f7d0715d1391190e7b14a1242b6799eac3142e21f08ca02c21755eae77a55bc,
0x2283ed8d5e6f9470b3f4f49a771061e4a4fc7dac683defcc0348a8862c6ce71,
0x21f60efb132b62909990b9f994f381a9c02abc3ccb54c5c8e8c9c5664c6913d6,
0x1cde82acee60b84424e9bcee49a5464ee05d1cf0b70469208a675635ac715495,
0x118a24510a2153f818f0a996c87de913587805f16cdb1939d9406941f958e8e1,
0x164567b0de16b7a5550fca229bac7cb0779524325e4ca5e78a86078881660264,
0x188ff303194112a7034527cc9dd0b4deb0960c9c106ce115178dd7087e4e8c02,
0x83d832adf9bb4a25f686abeda9f16ebf53263dcf9ef4311781d09920d094ead
],
[
0xfd547840f3a30a533a994d1fdb3f60ae5073f4484f34be951ee16a276fdeb9a,
0x4c4061820cda9bf472df3f64d6afa004f1e8623d0a4f6142cca1f19a4c275fb,
0x107757eb0c0799f781308d83d2e057ef8106f6b656b45e7636181e113a2cdf32,
0x2acd39e3892ac429ed812863efa05eda746b55bb974694a4e77b9a19abb55001,
0x29788bb6cd947ea9efaeefd0eeb7fd563fcc2e40bd623ea2b2442b55d98dc5a6,
0x6ab8672c936070a10757adb45031a5e2922f0fb8b5fab3a4f5e3872fb582ed3,
0x1db98a562fcd1a5e4496e61264aad5ea3b455f46eabd8957ba671e9c31e5092b,
0x1c4dde07d0f94d1aaa832ac2f5712d438b4e1804b5209ce55942d7afb24c6401,
0x2cfc82712ed9d71ff4fdf63ee4ad116fac195794f8d910286c152efd9f959bee,
0x18b49b773f5799888e9abe3f6883d7063333835b6cdd333580b2b4bf48f3b27e,
0xb300de5b99c27d332091f8fb0d97cf04a86a51d4d2037788e0d4f38e8f4eab2,
0x541af6b96524662084d1208d71b6b2a8d66d91179745b213679c2a2bbc94968
],
[
0x5019671bda026670c7ffa9081795105963f56ce327fcf78451fba2bdb3ac1c6,
0xdbc22c3e54c924a882c22000951239cc263755dfcb38b27ef4f880e202cb5fa,
0x966a21b9615af2b7563dfe41b8b9fc06039512dc9c8e1196891eb77f856b608,
0x17b18621dbd61df085da4cf8a03395e3700269c7df4d98ce4851f90abcbb3631,
0x12cc274647fc572bb79035bfc3332a4e566a28011f69dd0874f01c56bc44c3e2,
0x2c7d538b9e6d2b2e06e72f8aaab26dbddead1fef6a740a11e9953f8e8e9ee057,
0x2f30800c0ee461010569d36b60685a38b02912a020bc4708598854f65822f15c,
0x116c45e4d88ceae4565c0e94da844eaf2775d5f5b435d94d2d3d38b583fa7841,
0x2ffccbc40031ebafecfc3a97284bd0f6dc4d45eceb8b8998f1a667bee369ed62,
0x2007424b129ade2194c73e6e2c9d79360d1360c4fbb8c5f31330f938558b3ace,
0x2c53d6676d4d4c87d9eaf5d4da08d1e98d103a3388d59a7c0c3de51e2623aa3a,
0x2cf2c992c02a36334ff5dc851646ee7da04b44eb544ee3c0fadb8dc5eef2a585
],
[
0x2952c18c15558f29b2ae77fc39e51a395f173a9097db404db765ab02906b27dc,
0x2fbb1c59e9e8999d91c40f4d44233122ab35ffc975edfb43c53ed07dbf0d9c76,
0x82046081498eee63c287c6fa3efcdefeba1b5272a77bba9cfddb56afa53c82d,
0x2a429c2d06dcf34d34730c3af8bc19b04abd652468de5a85b5d5cbfd9c23e6e,
0x2ef584c3aaeedbbe2b4b103a61e94ed40a97294156ad7ddf0de43b845249f534,
0x28e4620d210536bcaa42ee46b1cdcb21bf215933bae4eec639efbd51f4bb6557,
0x1e32b1e2e6b59273a113d609663af6b30c95b36884fe5faf371de3d564213c3b,
0x18820364804d22119347b728135b409956f7933defa1059d634b977d9d3abcde,
0x9b6c00a37df2770cec0f1bf62a6aac3bd380c6ce9f4f96e0f0879237ffa510b,
0x445e26e26f91707da2df5c188baf80ea2f48c703614980fa798971cd8ec60f5,
0x19f5101715162976766e2b57a58674bc58e1ba2be18a59b07a07e4a93e038075,
0x6c5df8fd61eca2fb4923f0a46dd4e416a3a3b48c10ded13133ffeab6fd153e3
],
[
0x2353a60af6bd61e5eac2c9a4263d451fad07380654d4792378daf752e5cc33fa,
0xb8f40d2c4d28c472085203a0e460af73bbecec3b2b3a63f27028f2ca8a71251,
0x2c7ecbf14b2d6049a6439d0f29f10e26ec975acc3e3eddb77c831a509af59196,
0x197dfb64189c09aaef94a1f542d8c34aea27fffba704202d5286d62bd0eed372,
0x5f9a6a8d64cca12725dd15110f74aecf99dd30e57a7d99829cd8757b75b772f,
0xfe0def70bfba40679aef8d5a239b3a1b5a52fe8fd7edb754aee2b182d64b66,
0x1b1523463a45a2982889048681a422c02ea373f8b8c1bf16c74a375d5060c662,
0xc849d07b1d9e6ecbac517fc19237ff73424a0678f94699b23f76952afa4514c,
0x2c4036616c156006337771c1e355fc0f2f238e64cbd69d068aabb4b58116886f,
0x176804ec1cf85d35298351245d32236546838d9b98cf4242d601c7e8e501b49b,
0x2f5855a876a37f7bbbd6104accfcae507e9ddcd2a7219b487a76b17c525b50ca,
0x1a233c7cebfb0c6eb72dfd07aa2b537ccf291e84093aae36cc68002ffb83639b
],
[
0xed6a3bd48174e370b4f264b37488b03a5e3f4c0f61cf32d3157ad3e3b86f6bd,
0x28c01a9f01601bb46417ed466be6008595052f782e46857d81229e64e6bda02,
0x144022e7e077ff22a2ce3dfe9923107d5aef046d0a1f2cb5f36191ab04eae4ed,
0xfd3bdb79cad913432b7d3828e072dadc26cf4903d56b8976200723846c6577e,
0x2979d1aeafdf97988560d4ebbacfa6e2b7f3d026946abbb9d5397645e6e81825,
0x22ae023520979741e5c58fb04fd25d12dc8f5fcb6ad15223a5da7e0f91c7b4f5,
0x5246ee7854b2e20e8612da021b30798e5f0d02a5bfd5e79d3f9ac6c79fa609b,
0x2b60a4d43d12cf31076e0690e931716c47a86e7728c34b2d3cb0cbcf95bbb74f,
0x41b909a658d136993b3f509a9e9d50138baca48f6b66399ac5c649e68dd3aa4,
0x25b6e65e90ffbf910d19fe3ae23d037f8f64da9fe3df483fc4f4977ca36a7b1c,
0x2c0de448a88dfeaacc9bcf2850b6ff4f701e1a538d69098bc94087cc35930966,
0x5f6d62f54518f039e79aa726bf15a5983583eca4062405400acca58ca9d2235
],
[
0x21103a7aa20c8d15501be8c23504c6a912c6100c5d88085cc2e42a52302f4483,
0x23ce8e402939cccf36176a5bd83183a0d54a24ee6cabe4fc7f814dfbf26f85ea,
0x170403d414148f4681b8213550951e238edc009f46b00693ce3d9c5800fadd0a,
0x29b9ffe05db2c52ddd1bf0e5c532eefe70497c7df4b97db2f0624836576a6b29,
0x153891052fca1290fbf83240d334fd4ce05de78adfaa2c9686488e0c47ce1fc0,
0x105c0b246660c4bd8a6f1b36fc3cff86a2c432c0dc9321cb50abb98a10cd1bae,
0x6cdf8055439ac8424c435e7e9bea3f0ae93eab171ac383ed2cedb460fcb04c4,
0x3161d7b94e1b0411fc01dcfbd748a6df3156ff04536b3dd3101f7b2ebc3811b,
0x25c075b41ea2d827a4955b6469db9d41760faf885f2c6e9c09407ebb1c4dc274,
0x2fa2af7970e131f7efe3a7c788890ab860f76751e55b4ff634dd46cc4de660d8,
0xce587066eae0c345c3368c53dff2170cdb081bee52b243a1e6de6d4f82451d7,
0x2b09de93c6e3148cf7ff5731c8e144debb66ca896ecbe4089d2d22cbdb09777e
],
[
0x2fb232573e85d68c536d100c3a6ea9172884451e677b0d1cd0fb4dc4c27536b7,
0xdb82abbcd3a1b56f7fc8d116cb54c54fe26243702bd3d57e71f7ce0d470a40f,
0x2997d92a5e9bc66c84f635e8cbf080eb720ecd4ca3e42c3ab8d088611880861a,
0xa2a006e3b086bf502c5b1540eaaec14b9c15bf88471cb6d479fb4563f016497,
0x1b8c7eb04d351aff4e76af7f9fa1114fe45aaedafdeb42c1c23503b122639c7b,
0x2a5aba3b45e79eb2606b2a5b47eb907584aecfbfc0b4cd50cda1ce4854338597,
0x2f9a5cdb79645e3454c617d77a774feaf24ef603454c02076fc4c9d7548cc455,
0x6438e8b0220464039a7b8022f06beaee502c5de269db82f91d88fe1b72834fa,
0x115a91867233cc75d1c906a42930e93cb9c16afced390cc14435e5cfefb4e96e,
0xc8fd4ece5c205190cf6c842d1683444079bf49835d5c8b8dfbb11af956ccaf3,
0x2cea98cc64abd926df963da57f2ef4c434141cb53ac6311b2566edb957982713,
0x239ecd92517825174f796345db296562223760fb1b81c091b74a6a4a82968a4
],
[
0x302a085be040ff9a709ad0c73238b0d1e11e1d17409abaa34fc45de29b541535,
0x2e703ea9af99161acf9949da7afb18d462d85b671656d61c2cdee3a72390213f,
0x21427b3a9a2cdf1e2e6c628906b21e24271d72c18b0261be68cca44865dece11,
0x237a9e020908cd0edbd9eae8772350e0e731e3228b892fc5f64fdfa9b9daa670,
0x2d8125dbef602bd970d11fad7cfe06c3c64f5687b09b960ab92b14f69efbea57,
0x23a3b23d5edf5cb66160fd2523b3a383142291c0e0ee666682e946b1d57937d6,
0x1b1625d757786a19a93b37adf7f22ca8a502aa4462ca78f7da2d7c22b37d7f9,
0x14898babc8810cbc626688531511a8473ed89a22569d47ba586c284e45bd0ae0,
0x2f8fb37178b525758bf6aa527f25773e1ebcf8e1425379500c8245c741ba3fc4,
0xe992f44463e2dfd267e6a4a1c3303ea7a1186252efd6c9fae9e5f0c1f6d8266,
0x2c7ae475d90c475f73c0d29be8889d0c4b8536fee6c0389984bf9e4dbb1aae6d,
0x2945cb85e34532e3a22fc576703797893ce290d0156430a8dce61c9df89a8bd5
],
[
0x683e640e6154ef73c3cd6b1d0f0fd86ebf7e292e63fa84cf0a883c2f1faa8ba,
0x16512c150c1d2fb7235efd2d4f0fad5fdd78f8d0cde53a66bc90206c82c4b597,
0x24bba58086a78541a8ebfd535c107c36946d78ba6cb26d227e615131f71d337d,
0x6d349d6182ec30d68c9be010587c707f7e1e175c0d324e6added6337a72c2b,
0x10924807f6fdc4e9e586792e3ace3001f16bc02e84ada5df51d7bd37243ee1ee,
0x26635f4df7172107dad6b7c3068d2d438bfbf486471039f9e65a9c8462a2c9c2,
0x28bf5488a525f5514400dce722430287fe8e4c810154056eb0f4d6fe61091cf5,
0x90dfcc0327a541672cfc26c7e1370583c5f9214177093010fd3fbf279aafd4,
0x29a14dc4bac0a4c52bf30aaf6b9b8e05453d0d797246b64732d50f176a7ca257,
0x2609ff97ef574fd68d16a3de0872c3b59a5b928258dd1469826a191dcbf5bd0,
0x23238fda1417302dd03ce54607749610292945bddbd587241714fd3964af5f10,
0xd3be6a5b12bcf1bc705c20c30f320b8881c6c2ec00e857685c0599262a3cf0
],
[
0x1f09f3fb07f7f6476fac98946b7375095e014b28f23a07ac9fc7077144ac3979,
0x298aa5d5a44565b75ef68df902d791d01d98a75e822ef553b1761c58d6fdf32,
0x1fd5a6eba52e9ea1db389a1fc8dd3d0283d737c18eb06e090b6fd2dc88e0a14,
0xaabba39d220f30604d0c44dd47c3c70de3b79f5baa70a3a7a0ca02ae1b080c5,
0x230918919b6826faa7124c5bd15d10c036d565e100b696a3be7afaedb2abba6b,
0x2bb28ef42f5fadab6a6ffd5655b36580deb063ae3081d587bb1598878590f1cc,
0x21891bee31fb7bd89f0e4422b3c8f5b393299af0d9825db9be73e7b20097923c,
0x38e0c2e29c79ccf46b5ea1bc589276aec95b74e8bb82e4385c0585637c885f8,
0x2c89dc7562b91d8f2f7daa209b7560520b6bc62ec631db41cc5edac1fb142be4,
0x15dc57879cb41d6015da9881f948b40d20f0e03fad87746d8575af009c96033d,
0x1c674ff2ead27ce002f4befc7ad5f0f5123e59793c0fe21075e819ce56ce1e83,
0x11e7bc4a39d2730196b6c334f99750de5bb5e4fbca5d6a19eb7fe14abe845dbd
],
[
0x598c38d2e2c78dfe4907c74e82325cb191d52608955b583e5826ebebd1857b5,
0x203fd2078ab2a8f88b7606543145ee34daeab2aefca31bc04a476065697cabf8,
0x1276442d9383c52d50fc9b5ac34442a4ec8e9cd7aee6d6ceacc1a6f521aae4a4,
0x16ee980a2c67de24fa1a34082f11c71b7c45966a6e8bc6aa1a1dbc7ef6a9bab2,
0x1db922b8c249ff7bf96121eae9d9555ef7770f3dd7b056191ae9ab38a5ccf6ed,
0x96dd43a832ab68e35e57c98d7b01f2a2e5936807704593ac72c74001383f7e2,
0x2282e86ade85855d4ea0657c4add20625c6daa90bc93943b59a92dbb77b63681,
0x28331d0d31ca8675ad4767c490261bbfe5b84adb4ca2c5599a87f331908130f4,
0x14972bfc85de037b07e55332e6bc5b4f08f39ed4eb8a9721dffc4a586dd9a1df,
0x6d039b64e82d7975dd21a37b5ee79308f20e82e23489382ec2d176190587896,
0x2627be68d9cd0ccda3828d51621ba409f9acf09f1a9cc503a29ec306f8606ae7,
0xc7c9db952865fb9470f8aa1402536cb3b82276d9e288082ac7f83b10bcb6d17
]
]
".
(** constants.go:3198-3398 *)
Definition txtM_13 : string := "
[
[
0xd064dee824928d39f2a8be7d2fa583223c33995784d228839adde2559592592,
0x2d8c70035731ad9efba92821a88119f6b8183a362be641729a93d6a327c03809,
0x7b620c8a78e09e49ce547aa783aa78f3e4594c49ab3dd6f602bc6c0351d823f,
0x231996b592528575567d39d00645a83b13929093bbfa00d6a661e4a690351d0f,
0x4e47a72e49b9c5aa3f69f6af22fa0ab640c93fc524dd3c508486d66f079852a,
0xa8cb4b2bf3f0c5da671e48f83e5c1b3018f0d31200a6f19fd5195db22eef7f4,
0x18bbb002b46f2e5fec2b120faf87822ca8e77ace94e03aab5c16c4b931739dc8,
0x2bfae1b054ef2e924d75a8a01283da29103c57bad129ec8396ce274ba4524df,
0x6d101b19477d1627b9542581bf0cdfab38b05cdefdcb81965c5be00d780f192,
0x18af61f6184ff85f104c2bef179b3ec5a5d242dfbebe8e27a2918f620e8a5be8,
0x11e3a7c2d5f74371beb188c6e3d7a14b33128af8ee3287546d12d7777cef70cb,
0x2de5d6a7a27343dd0422ac71b8d409b43ccb0b672e978f8fdfd214f4d7866404,
0x227cb43b9818924f2a2588964a0ad7ddfa3df62284b4b3b10199a501ed970622
],
[
0x2b2ff5f27531b6f3d6a85d75e3e08f3a2f0dac3680a6c26d55ecbf803ca80569,
0x9ef3492ad19dd1d0bfbeb191330a880ee7933c9d3b36bb5fa02283bae5d605e,
0x27d6bd18703d7ca92aa24076d3187b6c0028d0b6213d9e5d2c66115237a19051,
0x193f32a3f839f76049c9cbf2414590698a2118e83658327c4338aa3648d8f7d7,
0x235d0e71a350f1f23d9bb5182ac44ec9e4615e77801e5aadcab8336aadb1712c,
0x1df5c9ef694afe61bc253ae908a8f6af0a08cdb9e78a9f322c22388322f16c2a,
0x1db2021eca3a3624a7d45bb16cf4a44e2af4fae0dc280030e7ebe55394f69d8c,
0x1a46a26691841c26109a32ae07eb584a6b8af657273cdc4d8a112dea0bcc85cf,
0xcae80cc05aedb66d6e649b057dbc5ae9759da5d7b43d5e25a400e1f92e9d1aa,
0x195057af1319e24df1b905c6e2eb2957003cfc34b001c0e54b9dcf2ea5df6be9,
0x2d4d35acd9f28a3e6bfd601472948293c1e4f084c714ddb1a075f2eae9ce21b3,
0x25eb2ed84c520aba164e33f0353b5131886c0fbd18e55695541512dec563a0c,
0x16c7c5c6161eda32c65bb347655acaa80bcc98bfc023f4ab12f5b2a899f37e3d
],
[
0xb658849ce620bbeeff233b7d12258015ea9f87a5390f5614981eb6e4cb4a5fa,
0x1458de516a534190c5550c6a1bed3af535c38b242eb9291373096ec60e39c1f1,
0x2969eb5016f24b31accf173ca204668dc2229845bf6446cea007c113349bd4d7,
0xa5da659b6fcb1a4273e1b7e3b544d2cbd362cac497afd004b8ea920fdb04bff,
0x1219740c424743dbbf896996f0ee7a4076ba960a57e8d7679b828479218570d1,
0x134431128e5ffc0ab60136c5d851a11dcdd63cdcf17ad64fd77517701de675f8,
0x97c6133aea8fe48f3a5fc416bdf5e46d05de0723bc49e53b9fb5e83d350c295,
0x107da0784dfb314d82859be44d37b4d2b6345c174b91651c65c98449682a5204,
0x12256b3b99d31d8a372986f95d66cc139dd23e935487da26b3e249ea7cbf91ae,
0x1d952ebffcbedd26036c54a1e8a2828fe320adf07a286e7f2c211b47f6c3ee86,
0x26309b52cb55f6ea5a9030b01378f65d2e6b7a9619926d9b1b1e21cba01fa7e1,
0xa12525f0781322371fd70b0928cce6e2eaaa67b8970dcdf319df25e8019a6de,
0x27e37c68a01530f092cd37c4a26dece2737868dc2c3519435e1f2cb88f07b62c
],
[
0x118132fbc1cd83f95167cb4473d54c6bd2c417e2782e5efea16e72d47b48b70f,
0x136ef2515955ff6619498fac59424816189f896ac0ed69b59854d105df47c4b4,
0x29c67bce04bfd020f4ff7eacab6cbde034b22fb86334675a361f059e50395311,
0x2a832ceed3837e742196e09491fe23e3f6e51126eab9acec96e71953102ef24,
0x2b501f1003e27aa809dc9e5cd84976a3b8c169c1e9c63977d7823f80d3f823be,
0x3ea4e2bffe02da5977ced1f1a6e852e921abe2e015f35b36ce4bd0246c2cd89,
0x150ef9e932a74b8debf670080641339b12684ff5a303b2fb7c1d8d56f56ab61f,
0x2b45b3be2674fd820516acd6cc6183c4fae0f7edfa9afcd02dfeeccd02bfed46,
0x238965d658967afa2bce50ff18cbbe535327c65b0b76e50da30739ded25eb492,
0x370b757ac6cdd46610eec0c22d43a543d5e0482577bbdc14e71090307b5f69a,
0x2aa84c1ef9e848a64f748b80e279ddcff871e9c4c3e2fafaaf79159b0b4e4018,
0x1bbf43ddb5a0b0d2845923b1ce128292359cbb313c5876fbb52f5e6b1fcb7031,
0x19dd1c6d45298248ad499531f33ce002505458d76178eca26298e39a62fb9501
],
[
0xb5944768d61c1b3562a5749f4f06c4dd085bb562b838d7e2ef14a21fdf524c0,
0x18cbfde0cd21c183797a2f089594a81cd828f3b0742371ed02eb83fb0064dd43,
0x124474b08829d9b717c50884bc895cd3f81d519859d21235d7a74450d0a9427b,
0x98bb2c4c6334dfea474d04cb2e9761861f6b18a8058a52b619d6227a26228a8,
0xf34db93ea8d2ad7d1eff86db5820cc7ada47bdcd8c82d01821f5c21a3ea2325,
0x6e03ca1146705522bb5e9dc73560eeee6b9b4bf51d48f953fbd1f006d758a75,
0x1237f44f036b2da0067a94947334e3afa2ac4cf1009896766f5b191cde284972,
0x2082e9103cc45245924289111527312860f6e7ee94578f0118f4a920d0f8d525,
0x23a6e143284e8f238c4b632ad78ace5b0dcd94a897cb05d1e297b4880e7433b2,
0x22e076a3aa6ebfe996ba068bf5bffb17fa724338cd67f67ea25330195c628172,
0x2fe31b0df04f276a525b619acc4a5ba3eb58d8c321c62390febab05ecdbc798d,
0x23e8c3606aee818d2afa8c4465d5ecb9c45bde78dd819c0f35a620593c1f42e6,
0x215f5563464e2df6a8daa8c34476a465e4ee9fa0ad01fc4399b649b2e07d1679
],
[
0x2b04d6ffbaf7144012d92c5c6212803c0b5bcc0d7b1950b889d1fa6f3e56445a,
0x22757da9e822345297bd060a3f71bb1e70ce977049c393235035677e84357314,
0x2c7e28f59fe8a8a3bb2fa2b2b1e114ce283fe22a978a3df9f62a171cb1d65e4e,
0x101749f9dd2605191c1963f25694ae267f6b44bfe2d1af34fefcb65e958784b0,
0x4d02ab05826fa50bcc5f9af9e396477e68542d076b683ee61b85869d4535893,
0x14c499ee51925b231da17ee7b55a75f96f462e431675ee36c7be4e9b069e260,
0x2d9ea99d2d237328266d59dd7e018bbd6bcc7941d9ff5f07a17baf0099f614d2,
0x303a9e22855d95d07e8172f3a0536d4b95142f962b006a8ab09e7bb6335e8487,
0x24e13a38f04d5e0fc0b6b6e0f782a6a523a8b3b0127224b8e23751b9cb9f8960,
0x126851f3eadc0183288a750153910a41e074b3544f0610a51273ad3698be0cb9,
0x27c1b406bd19ed13d533550b8b621186b1fd47f671e6604680317e6638b091e1,
0x158880f5adb96dd1398128b9ff339f3d827da6463891cca129c012c06b16b321,
0xf36d166e99139b9bfc1ac3270a3d98c4afa81bf97436076f57383da50436a5
],
[
0x29be2a42834ae32de3320fb0ee46b4c102a3d1ae44c5dce152fdeab5450c9c44,
0x1622805125ddf344c18e351d11e82291618b975822ad0c903efbeada5a51d44f,
0x165c0b978b4bb646a9ff225ac4900521292be54c879882d3f11eaa3103341487,
0xc7b5e09343db5c63c110d3175d01bb498290d971b1e6dc0e9a0e9e7158356b1,
0x2bcc82e75391be4ea9cd0f8a505f9e4f684778fc7a9b1bceb7868bb299cd2072,
0x611ecd1f379a0062b05c4aedb100bc015244c6a88f1631a456cc2acca8930cc,
0x477f951e19f531b8434ad755b6783d61b679efbb87fd956e394db9c434e2352,
0x2963514313f046f844f950ffea80f5e5b424b707f16599662e5a2e3668cbe5fb,
0x9010d73677620aae1b0fa8023ff1c812313ae9c3bf43066ea60bc1ab477a7f8,
0x361f4082b75a6ebd23f9a6e7309d8c4e7520159da23441edd631a6ac14c20cd,
0xcebcf30975b37267aedf521ee2bc753c3424dc4b6edf3984fb02ae1ead44daf,
0x23a1ac07351946a974c8841e92092a4ffc6aefc7fa988e3c1f7e7c87e1512a90,
0x1edd7c7deaf249e0fd3f5768aa92e9dad64118b491bcce12340c46f210b07ced
],
[
0x1946fe9de0a943d5a716eac08561cd91f9031fec82da9ab72883c7b218b11eb7,
0x29765d8cf77619a580658d127fb6faa44d6c70a0f4d65dbaa960754b4195d9fe,
0x2066134bb299d9e359cb82a8380feb63b60e4b9859d9b9872edaf9152f92d4f,
0x116a313d00cf99dc18e21f93a5bb198018bbea4b7cdced3e4d210971dd0a681b,
0xfe29b5bead54c5bbf426bb12844a2920884ac447906101cea9888986a030b11,
0x22af37c0e4a88deae9f7fad83819910735cb4b49311e0aae11cb7534d0bcee6e,
0x1d8b8ba772c4cda72e8ef9b19c424d55d57251b247c632bea255271afcfc70b6,
0x4b7f8d1d5ec8bf689adf12d656b94e15b0b229c1638c9c4757faf0d18fa6433,
0xa41e5a4421defd5ed7acfd48401395a409a67c3edf4c168ce3368ed944212d7,
0x1abe8badb2d12353b9bb98152086a9421b7cee17761730e25ac284d6b1ed7b37,
0x291c0da731c016c0d6c4c75387030a962bf7a2eb35e15aac02fadf530278a3d1,
0x34c460fff28862ef7a509a1750a26ed1e5960fcb58c4f48c7d267c77e58dd66,
0x8e1741a97f6348ed6d68f4b7bc6ec8b2dbf03f426769cc779ceee4ba1beb03f
],
[
0x1af3ca6240a55aba55df8e49835b92fa17e39ad5701ef70f8144109f894bf1d0,
0x2bb0b6b08fc1bd11070edc42f23e807b82e8b88ef70355dfc74e096a7ff381cb,
0x9372ed18ba1a774eafe1bff6deec4bc0814b0899c6196fa15a7acd15ecc5ca2,
0x404c0fa1bd1f7e059054cbb87f6b5c69d11457e59f90419ce4bd10bb8a803df,
0x1bb2091870a4fac03682fe5b1e2eb56b14ad6e48f4676fe41454bfeeb0ffd4d9,
0x299ef95aed8c75494db82e8679fbc6d5a3d2e29aecdcf6979a9b272a607dd5df,
0x206aa2f36e32b2b06d6be48ad493d354ca7468753f526e6bd82549fc36cd4109,
0x259547168b64b2a228941a542f394a2699c081c149463dc2c3d21fd8b2e4f31c,
0x2fc7d17f3a9afc1de289ad0f94126aeec834498120629cc87c4586c627780075,
0x15a7e64a5a46f5973e4e82a263ef905ed64f182b2041baa00a1359e7e9c5eda7,
0x1216f05607e032e49038ac1458100e89ac8519a5a3cee4545b08850d8bf160e0,
0x223db18f31c85e98e1dd7b7245dddda0ff8e319bd7d1a67fdbc7eef56d667818,
0x2f4aa8641ea4135031f4d97a7a2f679a8cbca562ba6aa54eae7d32ff7d04dbd2
],
[
0x81f58a91a4e0d100e0369fdd81a190035342fd0677ee1bf5215e47f8e58c2c3,
0x4951e747b7ae6b99d9250108c5d2b70181a93ff1d4bf723781e1b938029827c,
0x1e3a130e8caff9b5e563e8aaf84b2fc73668e351cfd28cf66f5012de61345b58,
0xc1c216af33054c497ef04381f58582298b54335f632bd62add29e08067a59d9,
0xf54c9c522a5c74e0d4e0c63611a7502657575b7a963c0e786d2a761c4e845bb,
0x103cc8384be1be1087b9bb47c0eb6049f85e0413f7b408f1dc2fa1e6fc4af91b,
0x28da9309acca103ecf19df72a722134d530bae6c660db3c364d0ebb200c2aeaa,
0x27919dd2f9d3dc9fcbda1a23b95cf23e3630e6fd5210faca6acf4629b88e5ff1,
0x1f86e3e9d147ed604c71e1fb6ef8459cfc40001bb4fc5ccc2661669b155abeba,
0xe154ebd50db3c2864dbe1ed72b0816210851b86c353692d1744cb3372bfa72d,
0x19ae65945a1dbed3965f2de3a39ff2d54ab1dee0f333b88fb49edb3fc9ac7899,
0x99b97c878ce35c957d01b43dab07f8003e2c379b41ca61a6e56a9204fb16bc,
0x21a0a43c88ce26effbf8b9ad668056b5b0362e5009f3d80033db473228fb7fc8
],
[
0x22a852af90680a8ca9688b71ed27c157d02b406bd6c7fd8121d7c7793ad2305d,
0x17780b9469e81ca70c7cbb4347e7fb40c63ef68f3dde51d04cb47b3b83fc299e,
0x255543a314afc5a2991413228c75eae398b90576b23b6cd86128665cc3bd9478,
0x11cb20544f43437a688a7dcb573a7da4f8c7b4437349eedf3fce432a6f3c1653,
0x160f5ac0b2481f8019e95e0b26445ba64dc03a4be8a15461496247e6ac29002a,
0x206cf4290ac984434fa774bb0f8901a233905632b793c80b1d59966e96a73832,
0x1b9435855d6cc4339240e9fa3819c2ff420980d6cf14721b75e4cb1fe57e118,
0x2b9237e5941e1657efa507b892c3b8dd57fc8d52876ecb599dd5e1052b6b1f2f,
0x182d8f91ee2a9a26215b35f3c0eecf8ec5cc360124cf6b903e70ca83126975dc,
0x25528d5d31dbd77cfa6e7b1847f8e84c81c1ed5bae2a51c9e403cc754c54bb55,
0x2f996ae620d00a3d4e55ef7a6ce0b681388f1b7ff3875b725aea6eb9039d8b25,
0x2c2b1e7c70fec2f58ca01bef5ac37cbb9471ae7914bf08df7e47dd8e3bc3ce93,
0x31b369d011f219e4a8fb21df9352878d93ff8035bcda834c3dcc41c3c2df85d
],
[
0xb27ba82a0ffb98368981736ae927a227828985c00c3e5df8c1276b1001089a1,
0x1913d51d9c71d042bfbf649d9e6e6ea5fdd82b4fd3173ff2fe02b85582528912,
0x76547449fa03845f185e61578a5a8f2683a19733fc04c73ac6a0b89bebb8453,
0x186f160ae866e10c4be0ea7d204cd64e57337c60c40b34c3a371d753f2ff001a,
0x2f3d6b8e2361166089501b9147e84ab6b09792ac17a5f080d75b3e320affc86c,
0xdd85dcf08fd38d22f316d91d812cb2a884308775afa9f667c6ca80954397c86,
0x238832e643158e96689b5803b0b77601b59bdfb4926113a3455f1ff4df6e2b46,
0x202e38e669883619ecbc6a6a45368b9b9a3e9ab67efef50f896dfe48b78d3dac,
0x67d2b612d75f4f974312d04ae0fef43a35b60ef054c0f475302c55fc10bdab0,
0x21f0c6b896fb14220d811441629c78f8e8e27746026220e331cceb89a0ee89a3,
0x2c825ee561c4ab6a22331177999c89806fbc34518387e807c20c359739ba9eb6,
0x4625f2258edf0262ba0647cae426a486fc801dc0b59d20ec0f4d0af8cbd23ce,
0x20a72083579059cb659952d3f2a01ed90d21002275b5ea11f209c763baa8457
],
[
0x4b46526207edc70a0d23c8438bc49a365635552dee240661a2cdeef966f20f6,
0x2a9e342a56c8b6466d3fe533b89f1ab441b62dff3153d3ae6500c2c3be6365e8,
0x2f98bf081e0eb78f8025c03ee9c199f2e838c51e5a0aefd333e9f7cfb38f534b,
0x1e1d5920edcfe9d6b2d0ddb2f6f741afb06590340fc07b182ea7c3ebbd933931,
0x1b59bb60e986194987fcea070498bcc7c93dd561ce8af5fade754ceac07b1705,
0x24ce0acb522da527d3eab72865cf073d954babbed3cd1706aa69d767e9afe7cd,
0xb43b8facc43cfc067b5513abcce846504b9395cdc14df96861a528a52ae2ec5,
0x262758fb3e076936995ff3140ef7d1b0a1e0fe4240a50747e2c3c120d977f3ac,
0xeab3f26417e6b53c532072de92d4aa78ccdf1da91660a461abb0f9fd7bdcd7f,
0x20addeb2afd20e752a39d2f21ebddc2772773b062922dc8dd3ba068836dba464,
0x754947436c3cded29a60c9e898237c2183a49db7e70e7eb73aefb4b5c693246,
0x239ca61a6ef7e501810aa89ab4996dbea8fbd47fd2f7a2c96a818e93a3c38c89,
0x19f11771049b5be81b43ca81e3611f4108a4b9dc30cd122441f74319c3adcde9
]
]
".
(** constants.go:3399-3628 *)
Definition txtM_14 : string := "
[
[
0xe30a774c353a2cbf244d3d014d1a0e5ff0bac5e242673ae33f1bb2030feff68,
0x12826e5b9be1c9b85f7c98aaca9ce28a870687d3628d60def0ab3072b57b09b8,
0x22fea1297a4a5f08904d555c2e15d016102a4ed29c32b4bb10809ef14af42c77,
0x24cc6751894087b831598b5bc7f9db3cbb48ce294d9208e1aa436cb5fa2e80e1,
0x2cc3d0503a0e1da952b081ba5dc5b117e646bed572a645266c6ec3ce0a1474b9,
0x11eedbe5a5969f33446503494b469a2b83f88d3aa477e5d6d7963a8333a61315,
0x189ae9e9b162ab1a19d599cedcef428bd1325c78740aaad6715b710bfac4c1e6,
0x1aad11449d6e2c6e1adcf9e89114c336c0145528f356ac049f52fd8cb084370a,
0xd7e1eae2cfec406402d34c259e5966f6e2eb261d4f08e29088325a6bb669a63,
0x796a23ad6ed2ac995104a0d3e6c75e977ce29aba1d25e62a9a8a20364ea1be0,
0x299b8e8621d7d8c8d3d6286cb126b34ee53b2dc9a3697b8380c6e47f5711345c,
0x20f11ee81d2ac9a9ed1cac61d9cfdf10bf1b49cdfbb6d232872a1df1427c1839,
0xa403e979943b8d2f947f6eda6d41170881341bb5e4fbbb3b4fe3dd7dccdd777,
0x4646253380f4bf642972ae81977779454aa0833fda36b1822cb9c09719e3dd1
],
[
0x12186bb22000ad84b6bf29179ade2d4e7e94ff07e51627e09580571061fa8ce8,
0x237e39980f9007bbf8699dbece054fea1f19766be6101885d421fa3ea46b5348,
0x1808cbe7ddf2a3684d8a164fe2d150df62206f6be33d577dc5798f193aeed7a1,
0x33cccef05b0bcf7b77aa5560a0f949c90be5cc2c57122f9885d24a117c63f98,
0x2854c82b4b5f5df6dd3872e3f371372de0d12e16e9108766920b5458105e76bd,
0x9b63c75dfcab572d280b057fbc3640d35dd5f16244863ab8a31e0956da8802,
0x28fd36f1c761ea7bce29e6f00067fa40b32e6b318f506b6c94bb847bf72b5b52,
0x2b56c2e44f703a3b143da03c25749367f752b16817257e6d123b10bc85543432,
0x184e5824689e4f81438567df435f39e1d35a819041d7eaf3af908429beb2bc2f,
0x1004c5ecbab6b7d12f6bb4caeab33dd56c1f829ee28f47c29fbfbb147e884654,
0xa973a665693ed09434edb2cb0a971ad277a82b3385788552349ae09e8bd0c85,
0x125478c8973bc395b648c822091f8df469504a71ca4fdf1dab59a708d0fe4719,
0x2b0696d45980020a2a421073440e3a4fd39edc5288e6900a5958e0cd81e0eee6,
0x264625c74f2a3bbbdc19481b7866757e639c124b4eb560da531fcef99773903
],
[
0x2399faa648aedf9024c6ac3ceafea248216e24a9e56caf5acd29ce2546a9f6b2,
0x540f5492497595e13080f02f6b1e653e2e51895160ffd5ca14d26aed93b8672,
0x1c1ccb44ff8ab6da854e9271f4bef26d2ac26cd7441f1b69d16eee0d7a7b481b,
0xe8efc85cfebde295ce589de60aec0db43c81f4be7da44eb26fa4b71f7cb7ee9,
0xb1d810fcc721551e2a596e9009367fc6a924857ab29b703207b08c95ecd001d,
0x9fcacc3998065124de01bf7c0c8ba26ac4241f1f7deca1eefe5ef3d5015e3ad,
0x5d2f0a3c223122ac01214250320b52ff5a3d242118e19778b2c8cd1a976c611,
0xc7513f762b64022a151d62302099dffd51791d9afd3dcf96cbfcf6035a2c27c,
0x18fde6451062016edeaa32e40a8fc30751e17e9bac192f8ca891c11f39ebff81,
0x77559473737549dfb2016dfa72558bb2c1c816d7318763a5e4fd516b04914e8,
0x2de9ee6529e5abc7aee93b794c4eefdd517c4fe12fa56bce06a3708d86336bbe,
0x12b591b7af35ffd997b3a613687e449225625dd5d101cef2d6f2af02d9dbd6d7,
0x2f9f88fe9be36457e8a546455aa00a0f5100a7f32580b78f26a77bd0b7612181,
0x9714e717daa3ceb3e9794d24abcd172831cba18066c4c048b0995e9e6df1dec
],
[
0x3add29fe398ed2d44f233125ecd1509e3cede77e6be08b94af4fec87eb3e48e,
0x12bbfbb110ec2971007ddac5f8e36f655465d05f2462996b2114efacac70afb5,
0x1b8d209d66b2c1acbaba435e304ae20662d336d10330beb3355cf801f194733f,
0xa9d7ee7ee91677affd3ca4fc674625be897df79f82ec438e80f1e000c8b1f70,
0xb6eb2254edfae1d7503c3518e64cf19f3443d6cd03b71cfbf1be5936da4e046,
0x1a9ab3fc2059b0cff7e3cc431f7db45f59d8f7f724cd10a03f31a36638f8b52,
0x23fba23ab4bc24d4880ba5a6ffd6eb5050dfb8d0f56476d3a30290eda372ac4,
0xb26700fd4e950c25ad78fedb63fcb0d9ba73ecab858c071664866a9096f14d5,
0x4a572b86105dba5253d7ed1e76d35a126e6718551b976b208f593f08158dea9,
0x1bcbe67ed5fb7522adeafd1d9a150f8d57ada218db346915c86e6c00c00e38b8,
0x2ea6b7a7265c503fcb284c2bb19512dae71ef357125c3ac755c6bc6cc37bdb66,
0x30544eda9c322c6c872671d667fc5fcf09cfb8d34e8e5812b6e738e7ab40d8ef,
0x206733e327a64b78d3c48b6f7580d0887c1778343b67768859e2532d7d1c46a7,
0x14dac9059c9e78d96c7ef807ba342b946870679782231d2af0f6e4ab76cbd101
],
[
0x121af61f4dc5bb24890abeb9251e5cea94770ab062dc0c28bb8995dd8f183635,
0x2f2ec51c48f8b73c51b264a70d2ba0b46bdb43f933de0faea8a7da2a97cb41f3,
0x11738ced3933c4b27de13911db71ccd58b7b31344ed9153dbddddb91fbdbceab,
0x9175b1fafacdc0e62b5f95e6ca67c3ffc96a26e37cfc734795b92f1e46124d4,
0x210a4a80e6eaa799f7ce05752bbda4d4ff0520742c943e1efeeb12a91229a5af,
0x19bafd0d7942b839f36ad3d70d9c87b55674b9bdee02a7dc30e4f99ebcc1d94f,
0x26b8eab0dd0d95b7a8439e0ff7d3438a73a27b5993d81fcece729a824a3521b1,
0x173985fe17f3b0fb85de6104c02b46c3d79eee9dc28b567f02ab1a1c0ddec576,
0x1d948e8774b180fa5e1a3932439dfe8c5f32a437657d21277e42614b4c9a3dc3,
0x1b61a03e218362204fd20b67536e5e6ca7b96dbb53d53ed1602302988614876f,
0x1380beac7b062c6b89914a976a8d0b9d3276a13c82c23fa21f4fa4403e3267cd,
0x2110c105efb481b679ceb2f112d6ea704442763ae2ac65edf8f15cfd169c560d,
0xc272d10af2ef78a98dff7486c49d7505edd88c922e5672a3abb15cc49f4134,
0x129dd677c1f8aa2d36d2a7d5340645dfac34a64ae456f91b97de9f8e91313615
],
[
0x2ca8ffee2d58f2945297b00cd0b511da167080d53949b3f1fceaca9616b6143d,
0x26e36544d0b5952dde4007d11818465bde91c4dce65abc015e7556ba58b95ffa,
0x1e97ce013afaa6e9c993e9cfdc9aaec91b06787819830985a72e9f7c6e516ab7,
0x3016b074c814225e2d5c1091a8303eee4be476b1458ad54c16b4e1691f6b4724,
0x1c1b2cf11f0d3a3a121be7d0ddfb24dc71f54b9bef943aee32963966922a8399,
0xc474824afd2a880c6a85a7b7a5a434ac422c7a63aaf8ddc7c4d9325edef40e,
0x19775ec781fd4089859f6b7f127c91eb83eeb7ec9eade14677b0a6b10b9e6e24,
0x20a9a6284cfc4381795e3b06837e9596815fd5b6f162bde02f97db687c8479fd,
0x20441aa5f4d5638e64d7ad9982b1bfcfde158f6a3cd6af62941e05cc8e533151,
0x2d3d269ee324e7c43c11aa84cd15bad65444ef8369df15749a8a6b2c8121e2b9,
0x1a5718f4a92dd8d179b932b0820f65c7bb93eabce398f997324f98ac76323b92,
0x8fd4397aa8b3a84dd1ba4e2d0eb7c6d1c5eda1f764814b5ffe204c8ec735606,
0x1a327ff2c46f5969fcacb463506e102d682502381fc3f999b9ffbd4520ba4695,
0x10879ceabc3ad045d76f6cd5b26b56dc47b512d6509458f9ffde8da79e6649cd
],
[
0x2c99ef5e064147da9782b914a294b6c14d21ea7eec1f72e8761671069d82a134,
0x226bf94b86b177cfe7f03103d59e3f9ce2393821954708e7c723f8104a68c664,
0x66ab8beadae7bebd26a33adbd6bb392d6825da37a679e8af9ae8bc4813c3168,
0xc099861545e013a687cdd49a3a296a8d2c2e99691c2535da712d351d5e63c10,
0x1574c9e5caaa8a6a7fb4894d2c45d1901d1c42b3214fe9a72fd3cc668e399f76,
0x3a65a91d35b6e877908d5c419e7850f645f62b1c913765a214bb0f7a2915b49,
0xc073eaddb5d3f79e5bf83bac00f37700bd64502d8bf7d5a099fb3eff7d3b03f,
0x217aa400b2b625bc36432a545e533124f99c1cb98eb85df747319e85d530470a,
0x178a58ff122d168cd4ff11a47280a4b8e5cdb313411b6f6e9a947c7fb577a51f,
0xea45d22479ef5773e58b0fe740868fc1e8b50bff76049d5b6ed5e723711867b,
0x1c7cbf2448de7114eed701b041809034e07b946a0340b777268529d582c225aa,
0x2487df9d5e066b76ffcb2f0ca190abf5fc1e5872c4b6a36a46870e9159201010,
0x2c0cbbe46422917152ca1906462bcb5a13ef536322a8715237da09b8c594cac5,
0xf7c3f3cc96ceda039e43c86c1b680c77d6f49f50e94de23e4db42f8e9caf7d3
],
[
0xd7d07cd3798f44d832a6571c21706758693e5e93684ce2d1a5e8a53e0cc6709,
0x25e311b37cee693545e2c2efc2043bc073552115b3a065cef13d36547b6b9dc5,
0x21b37be521835c32b673a31d71aed1bc7f3ea96fe1d4c23f14623a0a851a3cd8,
0xb71a06bb75b0a10bfd28a3788bf54a8a144b3287df9c591a2643c4100fe388f,
0x26ed5fff06ef9e1942bd3d0d3ba6848e47ec045cd26f93049d80cbfa6bcc73b0,
0x137908baac2e35e13f86834abfe98d1b54b7c25d6c85fc6c05ec7cded9175517,
0x143991e8386d62334ca0d87832a0845b48416ef5158c18e7b9db8cd6aee223aa,
0x148dc9335f621fff9c8d2fa72a9cf5b6febabe1f5ce77689c1a29e393185fba3,
0x256e145378d2604db8c509dda4552452b6c4a891fac5da199c7560768d948836,
0x2280250e212be2a48d293796a88ac62b05411012f46a66f87a0220a3dff3f79d,
0x9c89e06cad5430153dd52cc66ae4f521bf4145df048681beb2e06a385050117,
0xaad68c20fade1e3e2bf70fcef4b550ba00d6399e20d83402fe09b52ddcdf527,
0x25f4103521e36d55e418162ef8ebfec6d45695520ef47b8548ba38b52a27fbf5,
0x10bd7824fc1b883b3da0072d2c6194c4a1e5957156594e908adbf6e6b1912b9b
],
[
0x29195117106623ffffb0af525c838686d0d97259fc73a5194609ac7b7b171313,
0xf2336e0eee4685741ca23828c34c24f073491f0e72c139610524a56f71aa405,
0x1e86ec086805bc7712b7510def651249ba1d491076241d99d00c692880f39a75,
0x14937879c4c7127644c765b6362f8b98cfd32f8572d7aad9cc329bed5b507a69,
0x59de873c59806f55114bc3f8309f9b64cfcba7434aae220447ea0e9c4a66da2,
0x1662f26cf04f5b969cdd6b93e890ef2b5b1124f51822888dc2167bbecf7c31e7,
0x5fb897d71edd8d8eb1f3b5c823a5882a06d964056afd532e6c88893a25f2615,
0xecfacaad0c147e0b3c7e049771e6d4072b02ee4d171c0e53224214d17ade351,
0x25f64d42a750971afcb8023070f6ec97bb2362b196a5aae2af6a70f2e7b357af,
0x20be703f86d7c0b9dad98ff8bb9fc92fe8ac0a84c6897a75d851146f74840b71,
0x296f3a9c104222692a44ad24f0f6fd8190027e0755567e9a7009ec71ef440ea0,
0x6301679b6cdb17aa6c212ce342ecf681ab7cd96bf0bfb93350368004d97c353,
0x7940eb04b61ec5341c1702f03993faed167db6fa2cea92290cd821b15fe4c2,
0x90da12e1595551d2500f90310b7701df97676404113c33e475b2e7749adb613
],
[
0x1b62d4b17de67375b58f248a88dbf707cc9d1491bce0095644ca0219a01e40a,
0xd9bb7dab4a189a3b6990a5526c82b0ae50ba7dd558f951bb9fd343cbb4b0e19,
0x75d1aa6cd2b8d181c9e0f42275c9884ae6fa09186fe227e5c4673e56e3acd28,
0x28f9e0058ebcf1591bc007cb02ac3acde0851427db20c7358dbef9fa9c57c2ba,
0x17e39ccba3432a135c0075d720c649562ee4d31b6da2e9c90bd72a039765e73,
0xcd0a4c27de11aeb6460e32fa2bcb289cb83321723155304929eb0ca4eea03c9,
0x2745a059d0962f1bf0dde1e1b97e0bbf4c4143d10fd3fdeb8d2b295ee4d7a9dd,
0x1365a904c7f6721002dbce17077a89a92bb8038bd27af53333f447c4cf035a80,
0x2f812121e2eaccc7d51bf266398d5ba8f601a2aa6d335eb69f7864642177667,
0x21f8d854091ddb601dab1b01fb30c3d4f77cc3167fa3332c3b32377a07e6aac8,
0x18393505ea6230669a8030f6e76130a14c1070a901ba5b640b88ae80d7d30b5,
0x1e151fedfea11659c189a31ba27f2ccf6956084188eb2c4c99b827f645f1db61,
0x2ae1ec9e09577c82c97b4b09142ace51aaad1df7dc352cd4e5813d8cee9c98db,
0x24ceb0766de25fc22789286a09287be740310c41747320bdf2eb5c956e040356
],
[
0x2e1681bc7c22d24c433f81dd3a326fd0242bfc7e2bdeb6307e4d2aca32adda1d,
0x2a4a6cc884cfd08af4b0dbe89b6d8e0e58113207aded8cbab2d075053efe998c,
0x142a83206747200fdb02773e766f504c65af82b200c0e7fd942f92be23d586be,
0xdf653524fff92dde8ec1c9a51c1bec30bf36a4f01e9b3b62eb13f8ffdf7b8bf,
0x2ae7f1414f1443735318163e1bfb1e1bcf5c271f37f6abf1aa86766b2e59e049,
0x2030b7bc2a70905d031674efb420336fabb0769ac0125c35dfe2ff372c1aa4eb,
0x12a710de6d17f91af890102226853bb64209f1b41331a1d17305bf5b7b52172d,
0x1fba713b98742311dfb3fa356ff83eef234ce8bf2b0d4a52de7af4d2519f2f12,
0xc8f8722892a2f06c5ab454e407bd557e9c2ea77ef807ee0e3d89c6785b0d33,
0xdbd093dc16e73832bde62d05cbb06f8271fa47229470462d8c18cf8a124f9eb,
0x1dca3060a6bbc4c324f7efba22274fd8d1f2560a4eeba8c8b0d38997e0d9c46b,
0x291bd9401de20916b9002a0066114b3bfae4d3c8308aba4afdccdf0aec12d66a,
0x1c97fc775f962fe05a7b66346b93c3260c8f6a90a7f5c63223a3386e19852ead,
0x1c7dcecea59e6f7beb6d702e2fe74588415d30e5dc09970bb2d56acc8e08328f
],
[
0x65850d11d0eca87c3697b6f5e57f78ca86952bad1c9047dbd2eb6be9e9db30,
0x1eb97819b3531ebb640ed6b42134335419101d1db60dd1a924ef9665f7a91af5,
0xee4683c8da536b6b50773a469bbbde2e417a1cf9be221520af1e755968d7ff6,
0x2dfcfb280a3d372dbc15639eace45c0bac562c44e292f1429bc916578fb0bfd,
0x12ea921acf5b8adc6a4e36be85713576d658099230b0b1766c666f12d92ab142,
0xb5342503af446ef824df4df6a088195fb67276657d420e6f312b2628e922986,
0x9265fb314a676b6b3f827f07283a1ed4f300e8d90f967b20ff61f455d2ab2fe,
0xab913f65e1ceb39ed8b83bd5d7fd900e78511edabcfe62314dd10d567858d8e,
0x407d585a6a7efb561377e5f3972319a3e7285e146c5499ef6c8504a3d0b62e3,
0x2ff5bbbc022d1b74fe184c064e58d967f1aad1f0926c906a5e356cfc3b81ad24,
0x6da6d88c233e3182c5fa5ccda1392c0f89f7c6bec4e60da8df8054807eb0922,
0xaab27e6279952c7291f036918f0b279d3b1d9f8e4e8ac380da77ec2fc24ea0,
0x27737fcd76dd296c28817646d30b1168c4d00e1f764c4565caa3276defd15c7e,
0x110a5e84de09209e9363c03c22b537ac6a7aaba2f6a9d1a1f6bfab71a960a583
],
[
0x1a59b36b94f9d723577e504d600c493f2810f0e67112672c743abbb13abf43b8,
0x226b91e352c65de4fcee112445bff20e4a67af0e110957319b2860d5087406bb,
0x168e771e9f8f860c49367ef919a00d4f128bab01c13d7dd72ce8d36bc6d1d835,
0xb345890b33c23d167396c583d12e4f3d9efc904f261202512350190ab1961c5,
0x1815d4c2e6a18f4f3fa538a004146d7f540fbe80a4605857714fba2795615df9,
0x282a555f9ad4fb57698faa1fc3279bb8c28c1f8dc8c693225bd8520db4313489,
0x148ab15972a6925b714602710fe9e64c0a015053acb838d0e876a46cb5653f59,
0x8e13c2e61c446b53024d2116ab176c843600d00e676402c4641745158c243f8,
0x11cb83e01ff5803b049a2b59ae9915b3e0045e1db694a6df9de9c4e7152d191d,
0x119816862c8226e9e5dfabf3167b3b2bf7fb3d19063989b24a16d97c94bd53d7,
0xc61ec79b106e9dc6494a6359f175ff637839ca53ac8e7a13471c56646180390,
0x1e8ee641308ba6fe5600b2df492cf2f14f9892ba1025826c53c77aeb7bcdb04b,
0x16b61b242d41e1975843309a01a36a14397d7c8e7beb4afbd9233b453aaccdba,
0x13822dcc3f6271b71549c2cd917b859cdac36af6848804d15a354d4de0f67ef9
],
[
0x1a4b186b77cd53f961c8ccb7815d9781cef7a52af64d0bf746cb522512d3d0af,
0xac5b86128ee47944c12af531cf1458042c35adfcd9e5b6a7531973714559de7,
0xc2a439067121449c1ef3dba6be1ff84f6ab7fac4bbd54ad7539e61826ca1971,
0x4f7f1fafee121bb811344f73f54f4a3583076739dd9dfc462b3ae6343c93cb0,
0x18f6c40e3ccf885804b374433af0a962b2963fb9aa01e8bae8cc834b3e17a31d,
0x174c1a1095e95d4f098c8d60826776c2f73691db37ec3b937835b65b01ba13d6,
0x1f7f9704cab1cfea2b2471d579ef99d193b234af90e62ca09b5a671c2428a515,
0x1fa02616024cd9bedf643ea36d262d1b24f38a557a77a82c686618c3c33edf9,
0x2e1c292e06b7f8a6e4344f10540675a63ca49e452f69565fcfbcd43bac0f3af4,
0x6fbced52576a913e6cdc5c5c96fdc8f9f4e931fa90beeb46d9b3c2d775e1e36,
0x2cec67e62320bc6a0ca32518ec81c74363a4b6d259bd275a63425d6cede468d8,
0x276e2623828949e6a2fdc917e2ed45dce0ee503cdaffc9add815f6d1d3c4f9d5,
0xc75ba60f8e0f6afa126e75703b83d9908116147b8b2db45ef24f3156b8f1855,
0x85e380905eb2cb7e753d0ab0ff4918b232c734418b6bfe1331de492fc76b21c
]
]
".
(** constants.go:3629-3889 *)
Definition txtM_15 : string := "
[
[
0x4523bf1a8f284c6d95b310dec2b54e0e00e59b571dd9d46b6201c18e1b56dfe,
0x113ad8b46c3eec20c9965b5a7b2e8a51529871d0401b4de6f63de9e5211623e2,
0x1fc50a16dbdfa1c3b99038f47f81a1c5d1ef6e7b221d4ccca6e821220130e000,
0x1214a9d6d7288fe85651a8cb83048c7669c83b5ed82ca2642fff01e852a44b4a,
0xd421a7c25af5538788f49475836712af5da156f88c5867568cd958e305026cc,
0x2de8ba83d2b6ab6a711fb9230adee1cba46de8c930c86d266acb8c1cb9684e24,
0xea7be82f1cb493b1bbd83ab7ca285bf0a1559ea05c3f59827b3b013d0a91fb2,
0x1e3ae7e5775d352651d713ebdfcebf9ca8e905cfb792bf7874239450f914c8c5,
0x5943e3618a32cf050018a4e2375f4d027b8c14ac82a0de57cbb90c5122a64b4,
0x603755180f66e98215d61e5346b116cc00cfd058274d7d969b3af95e78bb335,
0x19817db66fdb8215ecf70476c4044c3f41d78ac5a549c684e35845947dca0b11,
0x73965f7a9ba8cb33a955d42da55fd7c37a3f0226b029d36dcb3fbea95d642f3,
0x9a550431430846b6694125b5642b00607f36a1a29485361a3cf427da77eccd0,
0x68eb4e9d6e0a588b61a6ad501f380da0f009067666c0853d156e33d59c43515,
0x225e00a0da5a7f7496b70d0923a7cf7ff332bff06958cc0f3fad439874f6024d
],
[
0x19a92ac6087ab89982fe5650e5e799f91003fd8b45400748d2c25e40f04c578d,
0x7930cd5256f8ab77ab92b08bbb5b195a44a2382c66e27514619efb94e649110,
0x2d8d3d924f2897199e38eafbc7e101d17d7e563488a9f3198060796ae84c1b08,
0x1c0de2bfeafce164c9838067a8df6340f9d97edf0122333159b714f45c3f13b1,
0x20e4a28303dd55e5cee332f30eebafbd7932e7b3531d942454c344b8b8c17cde,
0x1bb15ee4d492a8e2cf1b10db1b738c6780066ea8347abe536357a723f6cf57be,
0x2ccf31a572412bb7d9cfa637707853217e7db5550b1cc30a894cdf483a3b63e3,
0x1d492c34b245bc12941bb163c5118bfcf85bc4f344042b2031ed8662a1f6ffa,
0x1c9b5c2c07fccfd9dc6b3abfe05675fc997eb7b8cbd8d8b4cb7e671615b0ecce,
0x243930ba01dfd3945f2aa02d588922b47c1bef2ff8023a849b4ca66a1bfe98b,
0x8f328e5e66c0b879b36c233f598bd8578d18e2da9f019f0411731524f42d90b,
0x284a2f083ee32a6663081c800713e0f2395e348dcecc89fc81aa75a5db2ba12b,
0x19772e83816fc2c49b96427c6ad0573347fa49a5df691252592aebc390055a35,
0x2dc5900039d4c8523ac379945cb9b58a54e01dbacd67f0c4baee85d353d3fe97,
0xcc378b44e58f668b45832fdab4a49372731ef2415c37f40b5ded5594aef3cca
],
[
0x302608d750f16491df5a285f5f7f6a5ce6b554f5dacf0b69d450b24bbb4967d7,
0x28f8144bdae1b904ead70b3b72c7943037de6b48490efd3177783594edd28b9f,
0x2aa9aae62cdb852490c650ff9e27c9b33d4cd4020ca66f5e1a6b374e662935bc,
0x1e394d80067f0e10baa95de0d99b4e39204a18727d1401b476ec976b5f173a82,
0x20bd028c958d57b79e35218fe34e469ebdaa8e8e714e918d58191f65046b972a,
0x27fa2120431379cbd86205ff114f34dd2dbce13e1c2a0a8e46a1dc27e7b686fd,
0x564651bc1179170e3c97afbc4f493617017b43b213eeed86b9b1bffe521fe86,
0x7333cbd0ff13c8ade1febe72892d9ad435c7b451aa72a8c05a7082395882865,
0x290a7ae732f4754e0cb91923c9248971932607be2e829163f11612ff8a955b10,
0x1eb520feac62e4545f4fe7cdb675e36474b8b1fd19e15d7c73a2b1dfbb23fed7,
0x259a2a1f046844724cf992aedc2635f6680f55e8a0fdac695ecd05fbc2cbbd19,
0x8f78e6dc59cd4694c41abbca086569a9083ca8cc800bd9134e4d48ed9d89dc3,
0x2d8ec6adad3a646843c88cda01285f8f32d29c6b1025cb5421422bf8bdba7fce,
0x1b72ac4374e95b7b7d28cd2909507f3006e8352d4af19e47b0b909682a03200e,
0xd7d8273de237ba2d4d5e8051c5bd5e312d298b6726ffbd3af7e732af91dff27
],
[
0x1a3c7daa6b4af5662d0d8407b287674d83eae5b7563405f48def49981c98c424,
0x2474f543d1f2f33b5ef3fbb190651135a59390c8a3661fae2df1d3f14432b608,
0x1848a60efc89965073b95773f467666687e38d59be208e8377d31903921057e4,
0x2ca2d8b0a793d90ed318cdb5f697193137155bcfb942d82bef558be5fab359bd,
0x6ed98a185bb2358f334eb257ae5e3183599c054c1b4e2022569b8368da1abc8,
0x1ab527614a37c2ffb00c0fad360abaa447ac1063fb9fc656d0148cdce2d7c372,
0xbc769cd7b34fcd1b454abff0c00b89b540a619b87c95444679c3ac6be84d450,
0x29ad5236ffbb598a2f8d238703608db7a497a7453ef9d579fbf05be38f8f76f1,
0x1434ece209d491280c5ae05d7e26cf92d99bb7289a5c1cac09a38ce53b6e03df,
0x255dfbdf30553413a1f8f5113d60e98583838d13e11c1ee02b25a387ea00cccf,
0x67d9294b4072b12c368c2816a53bb16b7e7e2a79979a416f2d02af862abedfb,
0x293ca8a06c5f179d938065ea47f80f65ff21969a9429e400aa177ecf6b6ae853,
0x255b96258dc8e1644f1bcaecee773632f25a6ea803cd32a1e01f82573775f6fc,
0x1f2a8dcafe79fd0ea22bb1563c3b28b23c5c4d7591d45e06744b3b379d426618,
0x22ebe0a315e07be4b0928885f52449b011b3967e519e438c424cc0428c35726f
],
[
0x2db1c9855ac29acc679367dbf70f08d98894077df2411f91ef68dd90177c1e9b,
0x21715a84742c02d057ac41f743b166da023228425681950edfaff8581201a097,
0xc893808103549d2030cbfe0004ea6655e24ee71a1f8c1f072d5cf6e17ae2499,
0x28427ab007a68c7ab12371f13bd7dba0acf7e97ea6e64ae52d5219210fe8a2b0,
0x51deb4b234890e31f5ac8e69a1e532453774ae93a9e9360fe009ed377ae9c36,
0x170cee2983fa3d3ecef2f806f40eed8d8e135ceff076fc530bbfee876c9e7f1e,
0x244b6b63f8041a5975f4640b18c7d067e4a0627f18751dc906016b8893c35123,
0x2e72b1b114dfee7e8d7f0161255c6895fa786070ce62d806c45a22d7d98a0a30,
0x228e7399b0e05802852bdd5d5e09966f03c4c3aff53c683eb2f69e0fcc21c0bb,
0x18451132581b9adf996c6cae15b92d2e4c09fdc7d6c27b4426f32b5e66a0b723,
0xe1d7ec2a54b11b36e65d7551e9a875a88ccc7a6c0470e7c26e199670a0859b2,
0x29b68e652deac818824da0c2a11b408d7a839a2e8576c55bfa5f1335ffc5b93,
0x186e1360041193e12f38099b0e35e767affc3410f6a8dfce9bc75567e39bc402,
0x19294dd22da673470377d671fabdf42cecd37ecbc018386a438706d6106b04a8,
0x2ed3cf0214f444d436655e03af8aee2b4d96961eea06e8133bd6e8d3e38234f
],
[
0xf06ee47558f182d810bbcb214a25da7f70a567a0464b348e1b30eca7de99d27,
0x1ef0e0c1f0b5f67644c486fecf02238cb7f4fa63a082a3c030daddce65a4b82a,
0xad80718c6e9d1c67b4a37b9e103db32f225fe42a9ba655ff065618b87b82aea,
0x2cffc378d2cec76ba7080b37fc671a96328bcdfc4630fcc2f2133dcf29c70dd1,
0x21f1f6a630471e32a8b9ac4b7ed4b04c56b96a71ee20a66a5458c6b8d5c6d346,
0x288851770f1a13822251da91c84e123593fae1c9cbce6c4ff2317e70bb658209,
0x2ff4ee110ee1be62e2715dcd119c95b95413376e88ec3ddc3f06fc9db8c27a94,
0x2ad369a84b57f7455ba31064001ca7779d2b4b96b0b4a91f156abec366aab786,
0x24f0fa154fcc6d6459d6c56f711f25e38d57e90be7b8046c9e001815edb41404,
0x7221cad39d9b5f8db705a8723038b92b6baf87284131735eafbecd533dda6d1,
0x173b3b349ee888d934aee9c14e889cd7d785d1e3e4f1eb72a5c2e56c48fd54c9,
0x9bc3e40bfe5f616fbd520f3894a0fdd37feb29429fd3a5015953171de3a70f9,
0x29cb31e1afef4f252578aabd76f23a1320aac90d4a0a66c2225e3d94cc48d22f,
0x1932bc6bb488b736e0d4bf306d41e622e66c1d685aa4598153054b40f75c0b00,
0xcb6fa0a5e11b9192a51904939d45a05af8055bdea3f379faac29d1309830e85
],
[
0x2166d78d948dafa963381cf1560d00bf3a0a1c288a743344c8643a58daf8cbb3,
0x278e8dac8c56b28a23dba4d90fba91eb947f5092d4a7a9ec7802f61778488e87,
0x20d87476f1243f490246f88736ee5fd6d33191f0561271487e9693fcfd7a649,
0xcfcaa1d7d382e1fe1fcb950e14df202a08793d7185255b025d562eb8d97544,
0xc39dbdf6e6d24a91a0a45f922c894be252baa127d9ac76909f86dc0bcc68a66,
0x1795384e91bafa554dedf5156cd799e11210ffd2afe817b5c63ad5b85e7fdd06,
0x2666ec1a67daa7beb057aa0e6e8a10396601a21884372369c012b49aaf849049,
0x15793f31caea39de315dc5bf5a3662ad5d8e1a12fa1a7280f2efaadafa97adf4,
0x18800bda17a89832fea54f26741d86c6b6fb9e15b02e7bd065533cb5661d2a95,
0x156f6a09e6a81d8eecf4dbf21646bb968b2406786cd1dedd4cc732b7532f7fe0,
0x2977658a10de6e7921ab9e34bcf07bbca61a72549ae57d0c15691bd143d4d2de,
0x284181093e43419789263736e544817111fdcb559a43773f05186608acc542e4,
0x200fa20ed1b871313900c01f8b697760d030d8cc0150fdc58e04a0d8a2b344b1,
0x8d1d68b8437bc980aa7c59d83393b162a0827de74070d2d34b4eaedc17e7e60,
0x39598a1443c009678602b8dd3474f276da5d62425083ec628a1737e8cca3e7c
],
[
0x2929be9bfe3f93cd34fceae665d96b1de1afb26bcaeea2f4edc454c50cbc4401,
0xfaf33843e6733437e98995e6f7bfa6feefa73d7410d8585918c347f3cfe92a5,
0x134b86642ff202388f4fe37356ca4f0ec3805566b7d4d412d8937a359ef9b401,
0x1d8724c5e641d96f6e372771b0a776bb742fd3c08e1ae250432246cd3bd01bde,
0x305614aacdfd4167cd1bfdd8fcdece6892d84d4a65e86e6f7c6349fb75e48b96,
0x2cda26473cfdcd185ba28cfdaa15e7de2359646a0287ebe8b60d702df009010c,
0x2b0666971fd911529e70ef918d019f44b5c9d77442b6d1866f6e76832d478847,
0x56c55df543a8d4043a12f409cd2c4bcf43a770f3e38c3fc79ad214b42da834c,
0x16b11f24502aa4cc3b0c2562a18a24ab8f986431b244034d3fc29555402b5f4a,
0x18ea0ede9010c7bf0fac361b5b8e7f97c75ed93a13a7ad4a017d920c03c98686,
0x396097733de5a1fa4a548749b73ff7c426f98d9e5ad16920614d337897f6b1f,
0xb9d5a3a957eef251ae9c26e53423f9be6f2efc24bb18756893a9d80e56a0825,
0x1a63a589d1710aa705136cb520c2f1c44d778e490c212d4b72e9f1538e5555cf,
0x1c0343816b8cecba48519b59b0fb6d4a9bad309ee38311dc3e8cfe8bad75dfbf,
0x1af56e6575123f99c5d7ab7b83770f0fd60fb9f4038c2942644069e3c243793d
],
[
0x1076d439c67997c37c6c1fda9a37dc2f762dd577946f36fcfdccd7898ec67cd4,
0x2ba437d6ae6c588c6b71506c8b508347e634b65cee317af1fbb9cc2a997fc006,
0x2c04878b4cb8156e9983d11574ed99dc7562d3fbb1878257abbc68852fdd2680,
0xfee8f9731397974100834649ee87a27ac92be7a3810303460141aafb542a429,
0xef9ae65eb922605d4260ab2021dfbb4774cd5ffaedc1b79dc681208be6f85c5,
0x27ab4b40901465ef59007114ecf1fbfab6157c24f402246b86a60397267308f3,
0x2bb5bf03cef933e4ee87f511de3985cff0323ab7b718d4cbca3f429addbf3052,
0x1ee10e28c612d9d6ee72f1274850c3e829be5c06f5bb293280152a5610eb01e3,
0x20a9d575fea891302b106439ab03a8a951d8b2ef2b562991946eb2541f1fbad,
0xb73119c98d25eb6de14246b1401bef485c9dc6accedc23494b9526a39d53221,
0x2a66defcf489c23eec5079a0ece1c5341027a59e7c592e760184b826d70dba9c,
0x4aa8e91dc30f9ca318fe24718fe595871f7897e92d57f2d87d4b1bcf9a635e1,
0x133369b3bcc73ee793e869360cd50d8df60fe398ed9d9c0d0d03e669f796e87f,
0x709eab96cc6255f2ae917914f25085025490c423284916e23b608638ccce29c,
0xe8d9c0707dc5bf80a2f08c343c69cc659def86630af3141a003acb3d3e90c08
],
[
0x185c9ad0da87cf824624d02bec3ba4665822a0f6b3b25deff3afcc687ce1321d,
0x24a6c1919f94aba9db98a5af38feaa5391cda79f9debfaf118670d7927e41db0,
0x1783a45215805ade9d359232120b183db54b43f9a7e8fb8dcd95ba9bbabbba59,
0x116f239abe820737b5e1e82b2ace3a45cefac489a6bff084e323036f54277108,
0x1adccb898e5fe18b5c29a4708c4b112b56d0fa5d299b5edc07d6f5bc00428b8b,
0x27122781df7bb05f6ae9e14e8e99da5c23dc77cc06108c0ebb061e5d1be93626,
0x2e37a7440e75b649a0799cffeb7f9dae38fadfc7cab6c5585e4a84f437729d02,
0x29f356dcec3b79523c0589a7046ef0758486828b212146c3f5ce987af3fd719e,
0xf9c05f609ad14debeaff107b95accd60e62662259905105abfafa9e8e08eaea,
0x1c66828552cac1443334ed70b7fd7fb525f907ab64479d117864c92e911986c6,
0x10f43368c0567f405aa6aafcf367e3e68beff957c4b0cba17c30c62b3f95490c,
0x253a11c66463a6dcafd8399fca58ba27febbc307d8833c666e0d8df072c5f69f,
0x1e99516c240d42bcaaad9c73f21a46193db8433349203035eea30398f9df7893,
0xc67a06b33cf73882b1c7152d4585b78223d85c77cddc2c7d3594824c5016565,
0x1f6dd8e85d3597bb6d37b47a1f063122014c888250b38cf8e82e3e5471ef84a9
],
[
0x2702b1be39e91044fb73926c1104719f4c037aa4151823ceab24f0cec49f4648,
0x4d80e7ef7e27a2b1397678ac42abcc6e2662c880503e4643fdfbace67273b92,
0xfc96302e8662de23cc5c8c228ac8ac2dcdbfc488a59f4dd41e3f27095f7e195,
0x2a31cadb918d78b96dcd548b394425a42e2aa7a28a6b63e509261bfae6fa25b3,
0x18a2661c03ab9b0d8f7d01091c7e563efc033196747e34139d3f5cc7ac001e9a,
0x26812acd03db3412cad4bba1aef71bd44b0094d318ace0366c79e729ff0eb2e6,
0x371f0d49346df2d88b9f1ada8ac99dd8125cfa6c30f3738fb9932a853268e,
0x27cea9c43fe0bf1ce9e53c0c026e839d80a7d869136603102cddf63cdf28b975,
0x95f1db43c827e6f0b9cd4fe929e7b8c78c93fd02ec9e0f10992feb753b4ca07,
0x10a66268dd9a2f368e95507efc2085eeeee8ce977ca1eff5b2e3d94bc342ff58,
0x25a2a43ee612663dbd61814f2deb06ed005a7414f99825f8be66f542f95a7b2f,
0xe4fd498778c2c76a02d0d91d8f89825856e706f598337dfebbf3ca33397968f,
0x13d84ca7f358aaffb1ee8ebae81c32e01adc01e90d09c9451af36e31af82170e,
0x740c1e9b8ed16e9fae204369c554cfb72007dccfd2530f2e34d544003ae5994,
0xcc8f90bab68e6de84845da1899bfc52440bdddb940b208301ae94a95777cb72
],
[
0xaf71a51cd463b9faeda93803cdc03186c7781845252fdf4e0155709d93dd375,
0x17f6a3aedb0005a9b0a258e31b8e6e2a48f3f9551cef6812a49075aebb8785f5,
0x24b22e5ce671ce79dff8de16d7cd2bd6375d7ecaa016ecf59cfeb246dac80720,
0x240caf6d7ab2f7b6ab3d15efcf3074f5b2142a1e804f25012d988454809e096c,
0xf8aeec74144d00a3ca38bff10bb0f3a8dbff4af6197847db879745aeb57b5ea,
0x213d29d4e1b6c01fc0d109ea6169490076d131d8e034b3040f7bd9c3c373ea17,
0xd0327b593042de04f58e0ff93386d1608d33a86872c1d3e7e089120aac7a4ff,
0xbdc078b1edd9cb1fd2c2a01a97bdf7d458648439fac1f28509b41a2dc9e7740,
0x26bc00d9cd25124442832d97abd90866d3fa7a401bf38bd95fa7ad526548fea2,
0x1f14aab5a59ad452cf692b123c65873dd80ffc188798a4570eca792b3f2f257e,
0x182f1c93c6eb29867b1559c58207a6aeaf40b66eaaf579ca6bd7ca40aaeb7abd,
0x126ec8c200262c45d1133bf9da5f1e5fd62bcea1e493a080af1bd283ab86f122,
0x5a78464a4b6bbca6e96d839827bfddbaa9d924840aef6555de643df167d4caa,
0x2a84c424eb58f9c38b4380af38e0458468980988faa1f0d4c6e723845678523,
0xc0dcf2b13552ec55c97166be347ca2f93b07e2a10164096d353fa280c796821
],
[
0x28667f9c7332073e293c80b98edffae01af4f67b4c52ab45e49db8b30f182d28,
0x1e62029129492c8bdf8514945950681361591a9f5eedc2449e5f229c85bb97db,
0x52c33fce08d4a39fd805156c8affb84349428ba4920cfd2e7902ddcf9b0557f,
0x2224c85f0c0b4093014db1e817d1ff16918f15e0cd231b848a48cf83324c4144,
0x1f53514a97e8b57204e57bd6b1b1d9555f3b50368154154e67c2134fd3151591,
0x2132f71ac89892c984a0a73653f2d45222ada34181a9e6dbcea0d63961f934f3,
0x4dbc4c8de708e59aa4b2116e53944bec97ed42309b4a184561d8f32d291f9c1,
0x2565a17a6bc56e87b0b63664319b8a47bf662c1f49e2ec9251be4fdf33d90f4f,
0x173e80596756cd9aee04bd6dd9dc15e4b8ebbfefe3771d9819bd4d444726f79d,
0x1d34655b5776e24701621acb41324cacb50165e019bff1e65f98304f7d822a6,
0x42eea616d905025147a482eb436a3b75535c9869b76d6cdace118e15c91fb77,
0xcf030b10a1b4291e576ebabb39c583fea0fa6decfa98cff7a96dc06cb77da51,
0x260ef13ac7e80fd2db3de9eb942edeef3f5e252d4c04508b1e1b130191ad0df6,
0xbc367fd93ceacb599c614aa28068783a5d27eec1fc8fa1765015b76dd82f5cf,
0x1f126117a949dff900fa5d111a0ce2661bd9d5444577c491a9951cfb58192d
],
[
0x2763c33f5b2d7bc3a23040afbcdaf998bb13254c272a5f8635a12606a59c2e5c,
0x16bae774867656e64fc95f3c249f801f150fd7ee28d195bad9eae43743875278,
0xf0d475225c99702bba4fd01276102b5cabff7bd4d147c0e3cdee4c07ac31b1,
0x39a288951a0381e3aaf598ef132853b5d694716c20db87923f0bcf14c914a8,
0x27bcd639c47482d2dc8b6d13da19fb8d63f3d6c875f6fea486da6ff2ee11e107,
0x121395023931f6bb3ef28b6063eb7a2ed7839e083fdb92c1e5593c83edff5f53,
0x290ed9ae7479f9be13af13f98bf88507e6fdf018710e4859fd2e48cc66ff9b24,
0x15b085b5eb678f8cedf21bfb30e2d64ae1cbdd7472449ed24e6034101c658868,
0x12a643f4a327acd2454514dd469551e36ab0e3f24ecc3b28a76dc1f38214fe38,
0x16a1eedbbea79c5411a639e3bf0e90f6e3f740f141599af8e6a43a2069572f95,
0x5ce7f592dca2148e198554fd64db8c479f29d23f1f16daf3cb8930d9456e4c5,
0x110298fe7f2bcfdac0bcdc3affeeb436d7b3a377453ae778fabd37a9acb299a7,
0x14829f09d4beebbe6fc30545047243fb3dab99c62aab7364a7a5b427457a02c0,
0x278b58503e0b9014104f8c446bed4c6de575c72d4dd9db3d1866846979aab9b,
0x138f67fbd9cb91ef5206d48cabb269ac42bd352cf371e43311bccad89acc509e
],
[
0xf81a8d8e08758e8a32aa8292666c4cb6ba3f5f06c4dcf4fc502ff97f03a85a6,
0x10f0172799be23a8fc3f156adfb6c512ba415e35167b563bf7b186fd12a41e57,
0x1183e91b7ab7372f157d4c477691eeaffc9e8863fb2d806570c67f4b1858fc54,
0x17620d438499f6c0a66bb577add4cadd66ad39e3377d302bf83d3bba126b2aca,
0xe9e8373114ad25af97d28e272fc42d8490373cab582193b874a10428ee6cd21,
0x1f665ba33da4ab9d9806caff77ced39c9be254fcc4c5da8f570096111fb109b5,
0x135aa38339bd927dd5064e4d572df55811b226bab54b0acaee511d60aedb02fa,
0x22bc96cbe7f8cbca81b29ba7df848dd6599035ff515b6d485550842e1a35a1c2,
0x11e1b0af7f5fc9f049877154ae173a1a72c7bc3ba192e438a9d0fa81fdfa4900,
0x14de448becba6ca0adb21b07455d2c2864c7b85382267026e28f0978822d65ac,
0x1844a81d4fab57aedbb4c4628e2e47fcb2922883eab0b2e1de16f248de4bb902,
0xeef04f24ae210ee0a94bc5621574783e49d4d93365a2b3dd069fafd43055452,
0x1328467c87ba73028921a89333bab97f8b24fcaa72f43837cbcfe5dfb7a945fe,
0x791d832e976b66bdaaff450731ff35d998595ab9748f695bb45d2c0fef06930,
0x11492ba406435f35623906ff45df11c39efb59fff09f501fb893d717e34f9d61
]
]
".
(** constants.go:3890-4182 *)
Definition txtM_16 : string := "
[
[
0x2b6fd7bc3a3b595c206c43daac752b765a12255c37ab51ae183933737a8b8099,
0x111d04c083f51a6fdf87412a537f6601076d61f435094ea16946efbfa4893e97,
0x133c5913f25ff5eaa860d0318f6a4b4349fd22f2d53530e5c785b70988a3a88,
0x8875f47d6f518c8c2df51a786bf2207aade284067228f440e7d0307520a56cf,
0xba9f44a107a81cb23fba66f2bc34152728f5f5ca68406649a7efe47c9473f21,
0x542832ab23b6c7a4b547a1066037152a2442e998c5381ba97698413153ba6f1,
0xba1f764367360952942ccb6edf051c8f937906a816641e0d1e9e2ed26906fa8,
0x2e0611fa4ca3985d7bfaf512f21a4081141f4ed0dc4b022834d3cb6cfd8b7ffc,
0xe6f23c0ef6f159dec68341a87830fb864b6c08cb954a14a2500876697897fb7,
0x1a7a2a4a08d87e75f720302bead7ca21c8f7c2ed2debaced9b8b1b2da461cbc,
0x1d8005df48c8565987dbb442b482cae5bfc10ee486ecc5b670ce861345979d1d,
0x28122254823f8926acb7e98f557e796282e5e1271618858e76d49d0886da16f3,
0x2414d4aefc7b4857df681328e68a582d23b2dcffd579a8e6aeed6c61050e05cd,
0x2f710c72d6da19c7d87cbffd55665b472b0265d13e2326a9a33b96e95d3746b6,
0x2e285441d0bed90bb41d6480836850e4d76da8211b04a236dbc7c3c30320c00e,
0x2964901a2b42e9aea1a6593662aeb9e12077a287434bda4ec2012e36a19dc95c
],
[
0x69b1779dec3eaded3f07d0c3e6cecd6cffe78d747faedad9c90665aa2d92cb3,
0x187aae261ef3ee21b37023518a071675c6d00bde82bd7f5441448abb632a764b,
0x169538094d4f752529471e3fddc9ef994cfad4f96dcc7d636f0fd509b8eb9c31,
0xa68830f19c0a729b2f89be27373d397ae1157bf507e7799d4220166ea0982d7,
0x18ae39086eebb98d1fc5f05fa0f87ddcb149b0afe38d1bbb85a65697895e63f,
0x4c5ebc771344cc0612765710bfcb1c2e6097abc3d346f049495f7d7b7f06cb1,
0x29faa7dadc8b7e9588d4a601e77bd80aadf272a1bfec3c443ca3ccac81d9e1e1,
0x2acf3493012bbd818724e7ceda2431e97c8933bfaeb5d7463b512e6e8e8f7fcc,
0x23b34612e7d052f6b312ca0e0cf70034ad232d9bf63c88821085383b6f6ec4a3,
0x11680cc6e80b0e430a4cd3607017fa8331d86c4d03a96dfc18767c97cbe0a197,
0x1fa772ebde6f3732444623d67fe991116298f8f30a2d1010c8ae6132a3d6907f,
0x2e63f1740332f57e8317f2592ebd8db0812714d6604132d525e33e19b3c98494,
0x1202e349d1d7b805846e90834efc911eb6b10c2a09eaeaa29ed288bd779b14f1,
0x168fdc32d4aa8dc9034ad4a4fafee89f0ed5c980d3db424d38f8ce5cd04c237c,
0xb9ae9f5ee6ad70a651b4b66e34f521b130d18c49464d86fe5d4b1820489028f,
0x6c2194af72fac58ca13a2a5e3223104ef49a540fd2eaea0d67a920d8567040a
],
[
0x1fa4effc83498d19aaa598b7771f88a0554dddda89d32dcf8a6f4cf776d13b99,
0xda28ede7f63f75596a2568b2dd7a584576e5b282f284795b1a7aa21663822b1,
0x199835da95f6eb22c591ebe514c7f283f674fcfa1eb787dfee5781a64f082439,
0x2af560600b3e25abcc7f78a4d6e2cd3fd99bcba075ab82b55e9841bef7b9210d,
0x101544d131454f20b549b24a65ec84f1b3221fd9b43461ddc6d156833b34c52a,
0x1a51740cda5e45ea4d4bd7bf5ce5466a66a11afb5bc93cf10d5309e07d410e4e,
0x1324558b8a5d4ba61b17790128be9f2440c0085dd5d6065b88f0a3b2537bdadd,
0x13473024ba419fc2a7743e7df8fc8375aab150d3753a54250a808d66f2d06b91,
0x13f15bc6453df6f9383446550534dc57aedb10139e3053e83bafdd99356175f0,
0x1314b54f8786096244532c9f054b379636e2b58bfdceb3d48dfb2210b529b4e5,
0x56a8ecd232a674c63d7b603ef8cd06321c560df2fd3f6c2649af576467fd798,
0x98b740976c2a1031e75132e050bf3838b739d061582543c1c7f95c152ee262,
0x24b96dbebfab6d23fa32c2c8e7758cb240bacd8143323c53cdb48dc8b65f8e4,
0x15bbd5619f0d59790804f2b9b37e069fc909a2796d1f77d0c62609deda2d0278,
0x4760054bd5d07132548bed7657f17c61c038ebcdfdd4025c7b802e08948e108,
0xa5494c9bcfa06aa72c36fd22d98fe72dc14dc0e4e74e03d1755f38ac34050ad
],
[
0x1676f5c07417ab54c37ec8ae1a8314bdeeb09964769881592043dffcb26bf41,
0x2043bfe52d2964e4a3b2da5e30107716cc764f9b1c8ba463f215ab1f7f03498b,
0xdbd8662511dd7000991b39da129f9d03b565a0cd2f218d6eabbb49a25f105e5,
0x11b33a9f1818ed7f581cac020051de26fe28dc0bd8cb1a4457d5a8447bdbd6fc,
0x26f2f58d63ca6ef59bb95206ce3ed3124885ec21762bbb1db1d6a7771ec6650,
0x2eb6ed568377b696ad3cb237064ec68e390c24886e1f122d21d7cf3290dc6d08,
0x18faaf1c91e002f7dbbd12f408bd5c5b92f38e02ce3635824821e0347faf53ec,
0x29437af1b14f637a1f0e39955f2604bf20439fcb2a090e346aa65a9ebe69788e,
0xedf86bf1b1599fe27c66f3494862d75df7764070a8263cf88778f7287938d8e,
0x1336b208e00d8ebac83246a96ebdde351063fa3f635887e753a0ce3e29c7eedd,
0x2646341eb44b4800d56084cb48500fac48fc533891f557e96784cc6004d8928b,
0x6f53c79fed9e09848e112a0742d8ae84a04bd9ba5aa2765b1e5edfb1602140f,
0x2a3c9f55afacee735a1b515526426384ad044291f7691974d9c05c634b43947e,
0x1e16e9ca2502d696023bce3427244ad6553ce86bbc4c349a34ba61067c6b6d6a,
0x2a4c6d3259779c396ef8173ae5fe87bd611dbe25d1c048ada96306db1e3a40d,
0x265ca211180b012c378e0198f0b5f7758c155e3675fadf92ca79156bd56fe339
],
[
0x1f4e7bbc8d42779e58aa07bf54ff324b814fe687b4c8eb81b9b7e74448ee27ff,
0x27b48a636a39b51a938aea3eb552091559fbfbe71e096d518c40d908dd2570ee,
0xdd0c118f15ae07e5db55077dfa46e08109954d99e18d72cd2caf613920e390b,
0x45c617f604c1ac9fb8d76e8d380322e5a3b69fa7b7c2ae2c8ec5966d6a4c788,
0x25b974fc5129d82ae4c6246e35f802e03440ead09995865313c8ca91c820c2d1,
0x181589b140c9109e492fc3ec7d8ca8e3c25a7ce58df06f13ef43561d58c5926e,
0xee1288b29855e2e38dd26292b39e260529841344538d6499996a32e7cc523f3,
0x206e4d445315b764280cc643b9479f49946ea86d7304b6a2c692ac34d7c98d34,
0x1641648c26b5a2dc297daaa6d4ddb6a2f258ba738f9094e7c5cda6efa8c993b1,
0x1887be87f7a352410482ef3bdcf7ef17976e087eb8990c76d7e971c44c048239,
0x231f2c98bda8d48bb4a6d9c98bbbc16027235a22a1ed4f88bc8d3a6e582209f2,
0x1fcea89286dc1db61fe1111606af396e98cb53dab5199750aa5e5d11561fb145,
0xf7bfcfab17db34c144cee44636bdeadfab44a6bf4fc8ef384ec89a4ae9ed209,
0x1dd0a5502743aaa9f583bd0ad35de13ad8d5fc98f1961f2612ad4c28fd9f9fa,
0x1959db01f5c8bb0cf483490373e75b0451b87b43e59181be0b6016674f3f5efb,
0x21f659fedaf6c2617f17d637cd6f54a27782f4e8431f87af5c8591932ce7dab7
],
[
0xf6b18c98fc89fbfa99a04c8c96ae5db35c296479f484b680df905d4cbd1dfa9,
0x17fe75a3d11b4b9d2acf7856d6dea3bbac62ade0c501347b16864f3c73ebb7f9,
0x7c921bf45e354848a60b0e5f292bb03c2469498b9c1e4d322f4afd1867408c9,
0xe6197fe502328d0ef7f9b930355312b347204b877e7f85d9b569dc34f064c1a,
0x2d409bf78bd6f6a4eca7397d065023f0bb6732207925d3ce4beef9f621da2ba2,
0x205a6d5aab2d224b668c70fcb41582ee9ebe1ff099292b4bc50af8b292c0ea42,
0x2380ab051d0ac580a7d116f4a9337eb31090a4c7ecbd4e638e7717b7a52bf106,
0x1382c3c24bf2489fe9efd80a163e650111f5d9885e58a9ed729dca1f9a74e59f,
0x280c4522ad0ffd92c391e94c70f87120b8341890c3329af050625f2be52f3a41,
0x1f405a9483311e1497568f1bdcd6d58cd6bc813982a0e71561b620003b888204,
0x1cafcfb62926fbc04857b0bd7d7392b8d8add16b5cbefb54b4d5312826e89942,
0xa12e162620e71beeb203be56594416b083e7e94eec23e0f44a5ffe9e159508b,
0x17203c4d2e1a428a17be2c27d1c4c5960dfc6aa36f22bdde8be56a0cd44e71ab,
0xed2cfae7b36f470a7d1f6940f914e8ecd322bfd6b50f9ad9f6a2226e7a95db4,
0x1849cd0910d72eacc32d891b71faf500bcb93e1cef2504af443b94f8b1ce7212,
0x1e463ae3f4c3bd047aa1049f4f091a2f1d5d3550e3d5801fcff68f9a5e6828f4
],
[
0xe6cd10883e1e11c6c191d36329f30eb0045af06c2d86d0c439f5c1f4fef54b,
0x2326c3dca7aab6b1852654fb13fff42a152ca9632124216cc7cc6f6d37522a59,
0x1f694d1acbaab0ea5bc026a1864d568be555b89c0f49b6134e9b895ae141da86,
0xcdfe099e7a154278dfb6c0388b9daa1e8ff323a20be6a6aa7a8438333f879cb,
0x17f732cc1354b1fb476e70568d2dcb0b6683d30b02415dfd385504736aa86de6,
0x28239a882dc7b2f3ff7b9aa8de9e3d81af736d4ee6ed991d5c6b4fa540148f43,
0x158926b9e94b10fcb321b293bb8a8647627a5bd31315808d397c1c94f650f2cd,
0x17cd11864fd2c73d0867d37264b4ca14df935a82f2a6f432c4998135fa5f4aa0,
0x1d772098b6154921db8e7506e6f0372ca44f20af3386e13bcf71ff5dc0d61b1b,
0x209576be72db7b0c9fe2b8329125e7dff0489a8e900a5f14c1e6e48604134264,
0xb7ab1ef17ff6235f7737f044161902f03d594cf4a0cc67b4ffb4711ade1eb0f,
0x1b1bbf4e9f706051716a0e28990caf17573086a5d818c038836696808b12d8e5,
0x22a8ee74367413eccf7aa03fdd420c6bb6255a6dd82081d6b14eda9a9752329b,
0x2c785f9d8834f5cf5d08f106d5f9918340fd414abe24f0a9ff2b8e0492b44d83,
0x4b5dc2057b88170a718a102e0ca9177afc757ee26773a0290c6bab159ca4fb9,
0x27412191fa2b2e5327a11d290e4b439a4124f48145c61ff4ece8448a4373eadf
],
[
0x425a9641fb01558bc7170a2ffc24eb6a514198b296a1629cc284d983bca8757,
0x80c442909227f4a9da92e33237f9a82cb0c6f7d0c4155bdea5c6517b046eb9e,
0x1604de6a2db122bdd5d839540a1005ed402425bac3b85e3a72224d337402bdec,
0x15ded859d501c2733feaddde22ff36fa8ae85803aec7a204f42b1f6553bcc655,
0x40db0defe6ba4797b74a43125cf34d86a2b33e7a22e2710b0fb7a5568893aac,
0x1ab15f2fde6f535e77e615c8c2602193d45860cc015849df578f9fef9a5bb283,
0x264fadcc791aa18e76751a895242c30cdbbd1197a90a456dc278e10bf0bff5e5,
0x2de279fcf77a270823a91a6cd1aafb58e9e3ab32fdff0b3b05c98d554db6fad3,
0x53ed8ad550d8992f4b9814920183dd839bf355eaca8cc7b07020a22614a808a,
0x279702b135d144ede943195269c00bf620f058bf0186ce9fff3cb38b22245a,
0x179a82b77f2ccb94b38eb582ac4abbb16df429ecc22471be73cc7766f96d9948,
0x89efed00e9d993f5fc1d5af2f2b5d47a9b70e6d5a603fbaaa8f65102123efd7,
0x21e25f0a7f8edc38de25ba605a86cc08e08ccb03e77c5e0b9edabe74768b60c0,
0xd8dbc3fc854c0665c30c48846d7bb0eb18d3d78a4f70fef07f242e45b865eaa,
0x17bdf338072884b522ce3c50ef4711091b9daf48a43374bdc0a830c37e5dcdc8,
0xb3a769c8b371562260395ee4f348f88bb056a2f0ec0f98e4e633bf7d943615f
],
[
0x397a7d7434b0aa941348de45aec442cd5cad2c398884950e8233c58dd50335,
0x2b1c00ea00893f9f91331bc907397db865c37d3bc6c4b39b81cd931696fd7837,
0x25970ce31b7b10cef221267bb1be1656ec29146df06fdb5b4f6fe6607523aa08,
0x2d4026bfa7b37a19a300abaf2e1d5c32dbcd42240ed860f681f61dd6d6214cef,
0x29e89034942414a1ff6833d6e22742d4106e0f5f37d1f2ab80e5444e5a52c9c7,
0x32b6266f24017fde1b281d0fe206dff30b539d5c5ba13b5312e488d8d6f194b,
0x2ea014b61ed575392239bd9411c0a6c4202b7334cf2e0dd8c3040528e4a3dfda,
0x12ced5254e260a9db7abe0cbea26396680f6e57dc07732a755d409ef751200b9,
0x1d4f9ba4fd8ce4ef193b9f870f44956079538d63bce344f9016ac5ed63a99a5e,
0x2c9c3135cf64b89eb5b714d7b2ebcd81fc7edae637cc6116591df208b6b2583,
0x18b63685f6fed2aa1904856378442151dd1fa01c7ce6121d23e1e9ee20b42558,
0x2b202e1d2626c6793d68aacf9c3a8fffb27cdf5a0b83ff8f3504f9ab26a43d15,
0x6a78dfde1458ee341a089c15f953a2193527dffb43f552cdad595da7c6fecc6,
0x22f62e45e50084696ac2512a25db9925244cf0214b6b543d3a9f83b8e8e58ffa,
0x2d9379e69b178208b8496b8a0a0a90d578b21f090c53042be4767e3c10d3b40e,
0x1adb4c87433d866e8fe5ae26d01477e3962879c20c8c3a170c0727167c06d0b8
],
[
0x1d66f208fc04411a1385c22e203dc08f0bac2f7cd9dfaccdec20d3b93252ad04,
0x92f03c7e98e61c2a85943ffaf9c04dbb0145fc2055e4d5be90bb68b90109746,
0x14956f80a65b01f9ee97e2eb070e9df2711cb8bcb538dd98e532636cc60782e8,
0xbccb669cb016d498464944f7192ecff6716e6cb5f895d2715bcbbb65b1288c0,
0x121d2ba5bd8f232ecf44aacf1044cd6ab6f93f1e537d7d1541754fd49f51b225,
0x4e358f259a33244f4058a056110a26816bbec3c76ab6a5f7be93c9e0c92f3eb,
0x2da2603a26d4fdec35318204ba5060663e15a0b1e4d9395258d5e6eecaea8fb1,
0xef5f9ee6ba1ae1d1264cf1a36e0fe4b8043ab0bddf9b9c3200fb687a8ea5c83,
0xd53d61c8a5214e0c4715274ad67a5d6a2cfb9fc3c1e791d41de22c8ba8468a4,
0x252e78b4838ad5007f518bb9c6a4ce501871f71128eee3f0c9784cd64b183fbf,
0xa27a8d1af6a0460ae1724f32f21a06b036668d0a863be50fcc47fec5763ce93,
0x3048a265d0eeb40e5a531633ac22bb825f75cee9036e66a061be3d4d248c862,
0x3fd94e51bbda6843d31a282530d54240aa496165d644d5d7737b1e5a7d60d52,
0x2f26bc13ae48520a439c9f546abb35a1222a307e38fafc3e7ffc843f6c77d7ad,
0x14057d02e5ebcf33c166e18fe904defa9e342a19e88d42336377f1c5e67ec30,
0x1fc26ed027db7b9e7241c2c760176662f634ba05a9ca7a850e184ae588cbe215
],
[
0xec1ed3ae3beac4ddd1fdb17b9c7c648e7ec81885a07a5bcbd967e6a3676f356,
0x2a0f77bb3624fc4826c9a2a66be4ec75dbc21642a16fcc4182d2d65c0fd8d7ff,
0x1d799ae83ef6552f30edc47b9e82adc0503dc4b74da40ba0bbd2cc9eb1b0a53,
0x5de1099c65f08a990ac0f1f45ec2fb872c771e10275dccfa4fce1146639d0d5,
0xf0913eb4ee7d3c02d8ce73d1cec2b6cbb176a92129b34a294adf066243ff6bd,
0x25a9ac2d1ef84abd98927b52c24f38796ea60e63858ec5b50196d7e169c93b84,
0x20a0e3f4e1249c4c6af100dfdf63f8bdc69ec7885bcd0d2c2e98d98f9bb9d104,
0x6b7e18d01b47ff8e4ef08078e8128a06693be657489492ac4195a854722bdfd,
0x12cf87253913d45d287e975f2b4f5b909d16a87d89c889057f666f6ba61389b0,
0x29a7d554e9ffbee639867842fd0e7d41ea9b1bc9621b654fcb398f71c95b668e,
0x186756775058d09c639cdabbacd01bf3c2744152156fbf7e8f3e999fb610ed38,
0x2532dd7487fcae0dc3a7ac50b80ec330c6fb6d4cf885f1135988bf6dfc010a6f,
0x2efe529db1de3c01d6fe7fb8a71f1eaab6af1641fb1f7aad4f2b88cd13c9fe5,
0xaf825f7ca24b4a285f544762d9defdc99f2b85c1b89fc5ff2079d3d50e6d4ea,
0x17818dd0254b291d0d8f4f1a458c6a21d8841153661812bbe986b1403cf270df,
0x10175fb6f81b16436af30682f36fbab396eddb7829a50e946c75f27e260987c7
],
[
0xb3e601e36a5d82e0214362c8419474dc1cc2c0ed8126534d69a3f790b27c603,
0x1083b742d35332a8b79b80e7dc04a72f7e86692e529b6a1ec5687334b607da7c,
0x12417c001be86197013b2b4871c4e9b0dceb83991919a9cafacfe54666f590af,
0x2c465d9b5eb852d79338b427b3184d941f34046172a82cce44e2b8e5c4379478,
0xa0fe66c0d4de00cc7761008732a0097fb14d6465f9d1df835e0423fb207d979,
0x2f521f24bc02286ae2bf8484fbbc39843886755f52bfec7d3dd5df78d340721d,
0x2f1d3eed36018f9679711e030bdbae51224b5efb8b1eb1cdca8ab886212f0fb,
0x23aa7ccc3751b740eec9f35a29986bc958a4dbc7c4b12eab2be8376706deb20e,
0x2b088cd30a10899babc325bba32aa343d329f9a8782469c4d25f0f237ff607fd,
0x305a0c2c2c4d35998e9913829f5602504363f21bd720347350b604193e79bc3f,
0x8bd9ddd192d797a19dd1da049beb39fa6596598a27031ea1c2b28966d96180c,
0x12cee8e3d1cac1ca84517ab3def487c460aec058348ff220c801b78979af9e61,
0xcab504b22a3573d09509f85d3fbd94e94417acb25392342bacd684006c37185,
0x160590968429f480f55611c6448912fdf423d37bf483c36acccc1ac9a29d2a53,
0x1c95c2917353c53b4cdb7f750a0fe86ce10f8d5bdb018032d3f793797d7c0a35,
0x23d300373bb8ebf7dbcf314a3c0b1fdecd5cae23f7e7bb915bcdb6a6782b57fb
],
[
0x163cb4e3a5ec92e57b25b095a3aaa8cfdc4ce59267718cc6090a07e14af10b0d,
0x53e95f9455bc6499d447b6cedd0b6aad9cbced97ccf10060f3c9ef51e28e76d,
0x2171fd11f94485466a819e24d0acef08b0c87d78b46d93bb9462b443fa40cdc5,
0x23918075c8fa0929befc2b171f99ebe9ddd6683594ef9a83f84d4acfd9592d59,
0x898ed1ec1a43687ff6aba32de5f819434528a0752b3928331899b0646b2f061,
0x1dc3f7a659530a13accad181b6e265474108d8b1469266552dfbc38cb679d06d,
0xe388bb105242406e372080e997a31392cf4ffbd9c694163fc366eae770e435d,
0x2273c370eb5810c03903605d7cc94d5a92af6aaaa7b844f35189e77406a7e86b,
0x19972ffdde7898ec8be4fb28e4b19efaa43c7ee20c88e29096ebe872e1c19475,
0x61d78e1953d1943e2d968335b73e15fecef89075e96c943d39702b214ddc5fa,
0x194184a825de9e9b63ed7a7bd071253ef5903e1e75a50536db93c26311a72017,
0x21c0d1874decaf90613183ea827b91c1b2951839f71f329cb9c9b0753ffaefee,
0x1cb33ad2ba7dd0c2063443432a847bccce775a8daf868e0c474905a4fa36d70e,
0x2bb32cf60f8d469edb1b6c56493d4c9338b4051ae2514d4b6082ef18b1d5228a,
0x2495b3c1bfec60741808149333fc43f04d79dec56582c292829ffdfb3c1a3c4,
0xf0417fa6237167e741525261306c17664dc3efa9247aa0d4bcfff38e89dedee
],
[
0x2dca90f3e5a15b29895f48d7a1290d7a33646b89620dd0a8ccde3aa3a51d41cb,
0x5904dae3470d40ce12749b27d646e620e8519e2b17cfa016caeb89d9e34ee6e,
0x22e9bf2aa02fe65e3cc74fb3d83d4e3351869bd30528c378958af462efd645ff,
0x15d7fba62bac57be5d97452a3c06d9fa757f144df166479ee7306967480a287d,
0x11e0b2343ef371d2d6d22805974f2539b6e510d761e0da170d0da90095a13262,
0x2ba39845393fcc776fd383e535d567621c7f64005a83a6f7f48222bc902092a8,
0x25143649c13e08d4b00bf34d2aa1a8e450f89788e27766896217047155c5bf1e,
0x2a7310e75fafe902e20287a91abe388aae8420b1ea4660dd7c159c26b9632cd1,
0x1fa6944703fe0012a16ee6042529ff02bc804313ef8c6d8b0f910a75e6f47739,
0x261f975babd7692822473b8e39f948b9cf98730a9785de393179d4bb99dacdc8,
0x2e08b28bdcc417d9643b3008085a27f4a9876792d3915c8b9da3567a6dd6ce82,
0x17e9ed191c5641d768b0e55ec0d4a85f6e5419d32f5668d397d5b6cb805387f,
0xaaf37d1f53dd0556e347ec705962379077cd543198e1c27593f4454521261f7,
0x2a4a72e9dfe5bf25f6fde750a1847e5b44298ba58fb504be57a595e7fccdc404,
0x2adec8549dffde7238b2bda6e7732990a911700c8d35288baa39e67015953231,
0x1e8fd20a8030fdd94e2c4353d8f82b4b212bf887bc59615814890b0f92a47d90
],
[
0x2c78ee5ea16d38f0beb9dc0733c4bb1893cb33ff671b737a1122d64f729cff22,
0x2e563b9dc5a3d4d5a93f476b466e371019c77fd6eea506126a4f79274f2f6b9b,
0x72ea2f5cdc8a3789fbcea414a91e7b27bbfb3151df510d080ff4ef7cc73f0d9,
0x2b6f16f812ba903901355955cc4ddb99f24f1c6e26430947e51811a68311bbf,
0x1d59d5c10b0c9dd347899377da35b7e677c7d39ef1b49166b974a7f2bc99c946,
0x4730fe04e0108c9a5145a5c48e60c5457e4708522157bfe0f82af5c664d6ea2,
0x12ec24239ba1b0fc9f952550a223a52d209d8d22b8b21ac24881a2719276be0e,
0x20098399725ee15d93ffd3e481e4a7b95c8c5083f9d69bff1714eea7c7d82d49,
0x18237af733bc44418ac84e623f483a6be28b8f21d033fbf099d645ba20f1fc26,
0x1e3d6cef37f9bdac23d1b381a6c58d0ecf06a6ebf58dfa7a995a443ed7df68e9,
0x28e55b0bed59191216d5dbe1dd05b22c009b079de877fd54aaf5401d2c867e02,
0xc6c9ec31c9e3be0744919fc555c77c0c125927bd16de2807712b35ca26dd045,
0x2a607facd3936fdd0e84e9bc3e4b4bac86e8102c2b5ad15cae550d28b3654e73,
0xc509a4bf48ad76e90410bea34a8919741608bbbb6b5503c93e732036f079d12,
0x178074303b90d8985e376584b8b8dfb7f952f8f4cf84d815f90baaa3b644c4c6,
0x18572826385dfc6eeca4d3c71d110b04abae013c5450d9e4947a3d019bb41b6f
],
[
0x2af324ec4f9e7786dcf00439c75a294bff753e3292bbf62e66471fa730f19c79,
0x14560083d980d172dd40c9426cff41467acea41d7f48ff11ac5fcc087ba2d5b8,
0x260f751c7823abae61b8f3748c84791c0bd84acf7eb6854870250178e9a52cf5,
0xf6673b7fb4be8cdea74aaa7802c9c73ff0d53a98e94a2bc60685d890a24fdeb,
0x1a15b7e2de27125f2e6a74f4ec7cd2455f1bbfaeb1155f1af819bdb5fe54241d,
0x75a09e41e74de8a2ac7fef27591e76a77c851e1a51185f31e99b5e08f01cc74,
0x79c04944d50b4777dd0bebe953600645ceca9d65fba020f97365146bef9c6ce,
0x2ca2bac7c1aa0c64e684123f0ffe22173923052b6a01f3c29be80137fd8972c,
0x13d9035a0dc798b04dcef0f08edd241524fdca0e95ba9cac05d207bd317e19cf,
0x1d6657d791831169c56b6e9a201f8b7b240246a2d0f854430489b983454032d4,
0x1c89d8f975f0304282ad8f7bd41c12c3b18ac6b80e4065fccda423bbb3ffa786,
0x20829ef3df9c183f8965e49c8f315c2995a6446a76053543eb750145f1a77400,
0x14a2bd5a56f87009db981546533202f3af812d2ef4d6b037f2830853b9f9039c,
0x199733da4aeed8d6cd148461617e8e46de22d3720431fc1605619b12a7fd4e2a,
0x1f5fc060028ba07d11fc9477f4faffe79a81040ea9a04c568267644895e6737f,
0x208b7c8c1ff8422d4a1bd13a02a94681ce217d925f40d2875f73def14de7a220
]
]".
(** constants.go:4183-4511 *)
Definition txtM_17 : string := "
[
[
0x196b76cefdcc7f6a54c71d40114a0bb82694c936f1573ac7ac1ea3fcce1fe938,
0x130fc54477fd953377fc23abbd7a41be6764892a8787c759c1440fe0133c852d,
0x2c9c91f48661771baeef6774578a78f69c355c8e907156fdf26db39d2446413f,
0x1dec0bafa3e8190621e5e095ef751ea03c836dbb8045b2a73f8d397cfb815192,
0xa5f52ad6ec4a8aa377d8dd2ae3aaf6eea0c68c63a1d034fbda67133ca0b85cb,
0x20ab7394bfdab344cbb6f2123800a0e23508e2125bfe795ab4a767cecb4d9306,
0x110ea322b0c26476c67bfa2c1b9d1713f93b3b9cf8320ce0dcd4b64288bda07a,
0x54eabe6131681fa01fbc6dbf3e7d53595d0f8809987182142b890ac8af89cbe,
0x224d811fbdef8ec0a006d376a019e57c93bd596213a07823b7d4abce1fd8e621,
0xe691fca423128a7d4afcaa582b1a94799ba1f5d2a5d53bc2bba56bbecb227a1,
0x189e279c92de0bab66707e6e6e310524e615cd4c6aacc665372a3b8e372d8ce6,
0x1d9bcbbd17b93b1913d2f79cdf12844441237206f0294746d93f8e5bdceb4725,
0x1179184635a9780ee1312dcc3d15c7ef042b18ae9409670e28c4c7f0fb9b608e,
0xe48466182ae8333af1891a6aa19736741ed0680d57c931ede13fc07ae82e88b,
0x1c9d56f71c2f22c44d3a8c17bf5b40452e05471f0b6dfe9ffe4725eb29f73464,
0x2234546f5e8541e8f72ad794891950b32b1cd891cc66775c5b635961642e9c15,
0x14c09d155c5d428198c234b553da338f227cbc12b0e42f2b9ce71563ee1495c0
],
[
0x1440dc2578f44694d18c25f892d98c23cfdb87a772200020e897823d4bc84d3b,
0x65e134cb8d84447d6ea1e17932bd4a341ebef2568313c24594faf9d7eca2110,
0x2c6b133e80abef84904fa4a75f968fbaabef890286d5fd11b87a1e52b7eb6d0d,
0x27c72332f59a00135baa94bde294911d135d1d95f53c52eb8b3b95594374906d,
0x87488f735b1fe2fa3c6c7148c4968e7f3479b1418a1a566743c1ca215dcfcfc,
0x19f0e2e141896eae6d56d182b687b8a6c64cbb59e031b749f35822fc7ee353fe,
0x299c47f1e3ecc557ab1c9abe36f0d2ba0ece01051e07f0858e97a9ce16f5664e,
0x1a4befe11c0230c62de44ffafea0de903ba328c6d67af73680312b68f9acffda,
0x140762d30c5c3a0b0750b1400a86a9e2f5cfc2531b729370f3ad9fe1dcd43f96,
0x180aa4babfa7539753d9c222e5e3359aca59e06bbefc7cf3a3ffa4f961fa1d5b,
0x17208ea9cd4dc1a6deebe6a8d27a3181ab5f86c6a706e6fd007fc1eb678e9de6,
0x20007a0f5d37798789e0a8ef683536d9cf4831a6566eb727b41191d9f2974710,
0x229da441a302929b0bae93741b7c75e11337c797e5721f9d7ee59235cda9a40c,
0x1137b5c61b9684bec41e4dfaa76438256622a4378ea4e646a2844bbc85bf81cc,
0x113003c1dc7baf35e4536f95f4eab2f3badda2c7a1c6b5afc956234ade3e7129,
0x1b61468fab59c925f1986186bcb97965a858523a2582d434319a9525ae71158f,
0x117fd528770fb17f718e29a2d91a63ec7c39ef1dd3039f0943f717d1804253d5
],
[
0x23aeeb0c6499b84bfc32ae3c42df9728798fd2ef774f1518b870bc57d1385900,
0xe76c40392bd5f458bc187be54099312a0fefff44b441637020eb92670a6fcf3,
0x2ce8546cb59f420ede61692e764e0e9f6715b16a2c8047cd8131c97646f50d24,
0x16e64661144d816885b32f3f7809703477788268d57c14b1d939a26b29cb7ef3,
0x6cf0db92f86b2732ee5fb881ef0176012dc4adfd849b9be4de17846a6ce5d99,
0x18f754a95b0af0e4706ff9024bb135164abd6fc16ee40cc2d6852d88a2ffc9f7,
0x1cc053a6a4d6f96da77e5e73adb9d49bc4d0ef2cc2f69fade48040b7f8d71386,
0x1e40665f5bb8c5c0dc9c11f39d47e9d33e717afa31ba74f92f8737a55efe134,
0x976d7c3844bc8deea0f0337f89b2a131302ffd2d0a870181ca5fd5fb6d4fb63,
0x2c54287eee368d5d52dfb068282d68e6b09b76bd1b5c9333b36848ac277744f5,
0x228a3488cabbf9f29efc0bce211a09031972b37f25ea35aca840dc2331a0cf35,
0x16bae49f5ebb1ffe886b634d215de61ebf4f44d1cdc4f84670df8ed69310bfe2,
0x2e269dc78f70f9103b2bced3edbd41e156e64910887b4dddf8a3eee960f601b7,
0x1f4b85552b960d1c18b7b8f66af7305a6773d9b05faf51e0ed1a5f2ef2f95e7d,
0xd5fb9b0e1503f2b92697c473b69cf76d38fc12912e2c3cb33996dbb0cdfaa38,
0x11291ef514a10d6f0651e4ad0da5d4a489e3018927879da942defdbdf701ddd,
0x120e7416d74308e24047f6828c68ae28bc288b216e8a25e8b0ebcf738480e390
],
[
0x1ed9d3e9276acb7b4dae53eba148806fd9bb07b2dd06187212fab7dcbe63d72c,
0xb981765ecae69dd7af3b10ffa424b8aeb206cc4f49257265c6753b1cc54ebcf,
0xadaeaf28776b813d518f645c793e57bf16067fd80eb921dd5a67e895646c9c4,
0x2018db386a3e4e57eada8d91408b155061df050140fb22f9a4f34fb4e2d02428,
0x67c4411745db6c6aa659ec737a586a8f4a1cde0352e30aa0063794865fc1c04,
0x193fe0e9b48010fa319c33b86b6b18f428f323fa237ca918a38faaa91ba49567,
0x9558ecc58bee4f3c578f62489dd900840a9889096c0a62114aa2db045a1d033,
0x23c4abfeb83192362aae21b2e9ee5cfc765bf1000f798c3ae70133556abc78bd,
0x152604201ca7df05994e9d5f058f3b6749cea63aa0cb5b4e1c3a00b6667958e,
0x2f65361a4aed320fcd03a45c44dda740213571f3975ce20b96bffd960cbc6e25,
0x22122c6313fc9a4c6d0f944d3ce238272bf35147b1b788aab2b8dbceb6024c76,
0x229aa5b547a63780d8d129e209fdb92f85662616d59da908075e668fd817822d,
0x21a91fed8bed14914c4fd491b6fa4dcbae7b3b8b3d456303af886c328abf4699,
0xba8a54914886fae16700c02efdf7767413a0bec5a19ed0cf0a7d8ac60c1f1c3,
0x2e164a524ee22eb5a8903fae1f35a3a78f882f3e3a9892b6ff4753baac934949,
0x2df2fb2c2e321e3cce13d16091705a40c5c795f8b41b61dfd6ae7d97d63578b4,
0x6995e510fd7669374c39d27903f342ac5bf8a1464807f308bef610b76cb693e
],
[
0x2ff57f3f7e95b03411db790a86647467581197124d217520ef2e6332a5b35185,
0xe4fb044a9fcb4087e351341f25d98b1399b576e2d6654534f348219a0acdf86,
0x2086a01b816438a2a41c59e43d73fa9aacf0c24e4f6bac229d65fba59922554a,
0x12263b7e3f3de60899a2c22fee919972cd79dc289a87f31f1b44baf2439dc87c,
0x19909241cac50288c0d12343e0c12cf9b9790b405ef0a9001aa6be0289063aa9,
0x11ff091dd551b6d586203ee0cafae2f7652e923aba82574a53b632a066f4884,
0x93d7d5563e3ccd0b5f15a9b093fe6b863aacccf9af11ffea9b295b7dd42b1f6,
0x1669e44bf0223a77f48fffbc9f4f20b5814f6185ae11a210f8fdfcb5f71d603d,
0x1ab6d8fe39f87bb0ee5b883eea2725caa52c575740d5ac30b058f77113d05239,
0x235bf178b5b56262d988bfc62708b0f85d57385cde2b4dacf9e6d592deb2afe4,
0x6649a13e65023a713aaee5387d388e3609ae9b14ba4da10642ee0b7b4a16634,
0x29a5b1e4e2f25445496adec230ed53a35993b37630aecb5d76e56608d1b78cc6,
0x29f07c1effc65b5589e1ca52cbe00bd65ef5e962d01200302670b6dce79eeb00,
0x30289c9678c0330f85cf8e362683a6144f22b841aa08f586f219dd9edaef78bc,
0x1f9dcbde7d058134a510a711d036d1f1800e473a63b33a7e0fb04dc2e09e3af,
0x1baaf8ff96bb2224bc34cf80c38bf13086f1e429bceec12090d8a7c376a9a82,
0x1d814b3c17656c2327f94cc02472780b886b88394f1a5cbe34dc4f44ff134fce
],
[
0x15faefbf8584a38969b4a719ffe5f02c2191a8cceda0b775162203d30b80208b,
0x303e39ca88e8da6e5c963564712df8a7f8501a7af4a990e4ccec19e5f8fc805d,
0x2348580de49aac01ce8fcb5aa2b467f6787dd8a96ccecd6fb47df7d5a4307398,
0x10e420edcb6da76170b24d777ce9d31612edb1593ea6d30e8cfdacfb6974f991,
0x1d25b94bb7c49c0170ee1fb2a5824b70e4554bcc54b6c8f8cc0cc9d74f19a5e,
0x1da3e00601ca3fc0d90b197bd2a474b46efe3aff3b2cfaf1ebe15fa1afadf2db,
0x45dc0579ca66e7e096d4dd86b882e68af2d35d70cf5e3b1783caaa0ec424253,
0x2d5b3f523a9668cbe4887881bf7b40184f978713e358de270d87a600e5c5c92f,
0x1b62ba8037a83f1261544c307f019dbea1cc6a84d481ea8960b0fc670745e8ae,
0x1794ec2b0eeb22fbd753b21fcd949e7bedb305f15a59eaf74a961c3046635f85,
0x1ed4c95c6283b45ec0cd88f511976f063ea2beb0695b8af7cc10589593a7978c,
0xbfce7b120068b9a30029dbdb36be01d071e8163fa1724f13c6ca89be29b729e,
0x506a7a5de6b56ebec5e708a70a3cecb3a2cfd25e7a20ed495e295a93023c5a8,
0x4890048fcdbde6366761cd58fcc6ac0a3360d9a64233d3ea4d8d6be8a23ec45,
0x285b20799970b58c63ac9f4af564ce0f28209b61802214da5bfafd0cf24c6712,
0x7b0d70ccff1b70dad9bb4b0142e3f6dc5bc95d3766affad378cc5042484dec9,
0x3b90da34b198cbca17e34aac98b169875ecf73aeb5c6ff1f00c9fe535aa9902
],
[
0x1e6eaab1191593de0d89cbb2399ab8aa955d829ad959428cd539be30b72fde9c,
0x1b77995dbf30cc55f9d4cd4849ced949349da81239a015440fdb38b876abee5,
0x1fb6bd6df650d27e8cac05ac0b45eef0700e308b29b4bd41eecff58027edc45c,
0xebcb358f95f84b719c631d4045cef03ac6fc238f6834522cebd02e47411bb6f,
0x3274e735db2faf186787528254272ee01967e6ae9d825141378b8354d843965,
0x4ef41945559c1fb0b2116cb2be1f043bfce8dbc96feecccda47cbf68be59b5,
0xda02f6410e24058a1e90412cd5302c57197f7b1af2a99496f9cff3ffd58808f,
0x10c1856f282f556d7cf6d4a293621506724ba6d3c582e4c261842f2a4bdb0ec6,
0x239abc7c9f866aec28685c26f4e046a92d4360d36cb50890f422e18ed6f8a7b2,
0x83e1cd5943461ab505b200311bde4003fb4f7ed16aa58c8bc28f2e08e9f6922,
0x15fe62a69b0438294395da1bfc93272d88797ceeef666ba2443f0c146f8ab7ee,
0x20055568b33367bc12bf4aed7a0909c173588a5763c6a1a7598ba7c6c7e3c2a5,
0xc02b148f4a1559b597cd320f00c02b96a7fc7c83811bd86a1e79cc3106b2201,
0x1a4162e8a7704447be0c1d4d5cf2f777670f4841ea27ac2709cd6bffeed2cebd,
0xce3dd727fdd11a8bc731500effa23763089ce3332cb730f9fe57146ee204810,
0x11f28ee5da80d19e31581b566a439537466d9ca7fdf14b7086830bd8ac13c4cb,
0x27fa77a0658791e6755781c367683f9c9333a41364f7870edff1935a347485d8
],
[
0x2a3bb020c8a50d310ef5b5c77cc408b077fe2481454754c4568ff668fe5f0974,
0x23643add30be204734d029cf034c958144551060c1901c420a28c9688ec36a80,
0x3e9718237c1700d7dd213e026f307e8000b3851467fed9e6f51fa5020c2369c,
0xc48e2f304f730d48e83dae5c78a46188500bc8040a49542eea5ef1a21b9d222,
0xcac320362e235b458d6d364cd0fff914f3c056adbb038dc2a861a49f7f70e24,
0x2f053fdf1a72d6ad8c9df97a04d637916f25e3425b6dc33e99ca7cac5cc7e4c7,
0x2dfb6dd598ada57ea71a8d68e6924608f0ec7838808688ee4b3fcd521f7be6d2,
0x22cc4349f6baa3a8e0b61fc40ab97210e4bd3b3dec7f05bb8ef839c84692afbc,
0x2fed5a03200417664537df8fa30276b85d91bd2ed21de33d901fb4d82439857,
0x22a67a88776982d6a15f577dcf780ac485ebaae6fdf6fbe50b95ea266a7b6059,
0x2b079a1d09b9d4a76d4e50c45c01fb7508b1c443a8fb21ebd28533e05def8864,
0x2df1ff86644fcc42a1932cf15d314eed407608246f14a8098725ff7be809c87e,
0x24a466f74e99a602894f421010f43a81c708b1b4ad076425190b85347f685b1a,
0x2e944b449c1369ce9766fa6f4f99a87630b5c1f2d63677a437a537d61b6c7470,
0x1079746ca51d9518a0c309296ca48206292798910494277be2bb65a6b134b3a,
0x13d7b03e8fc9fa647fca6cdca97146901df7c675a164913c2bd2a3b6ee3cb4,
0x6d6ee531ba3fdced05e24cf9103d0962dd227f1de692c0199483e92ab24ba59
],
[
0x51f815c454b6015c7ebf90c297b90e9604cd36acc6af07f99b5e51fdeb32234,
0x1946a26ab8953f9be558105fa5179f175e76a24429dad5d532c2ceb3cfea05c9,
0x925af35a3366801ac80a31d63f745fa807bda10560345ad572bef4cf2ce0d6,
0xe766f03afbb7af630eaa8aff4fe60f3810f30f3f4438498efe0186333dadc0,
0x1111ed7a66ba2ccd4bea0d43eec86ea35ab40253a1209e3637f103dcb84fc429,
0x1daf74842c7e79104349ad399592c5c4cce16f79e1a86f50d941598772cca953,
0x1057062b40bdcf1fe2aaef45898c871146799a92c87d0fce64302d6bc83172df,
0x12d019e37cd1bd76fee065bb7380a9bd8331a4dbcd1c9c776792bc19045c23b6,
0x996cae74d9627ca3c56c646095f39730274d25e82c42ce21cf789253d48a3f0,
0x2d1188d9e7e6ac24c4b2c9dc3dfcfb0fe4782d689f31b94b1fb15ef29d11f19e,
0xc34496a7db5abb330b2f6ce9adaef5ae6e308c8fc2c5634097ae352aa7457d4,
0x1d4fb0f18f31c8270b4636e6b5d7a33e455b1050de1164182cfcb739cce965da,
0x1fee18888425724970bd2897b54c7fa8e9c367dddbc8484da37864faff9f9056,
0x22d6e787f44daa6b6593dfde5576d2fdf5dc0447e65a1d5e7712e4e62c3bdcee,
0x23a85d4f91eda69f310c451d7d480c2f40c0d53382ddd3fcaaae627b9617170e,
0x2440e786179a7fbcfe8d29ab18d0fc6cfa383cfb747f7a2d15b77d82d9b0d9d3,
0x1e507921be7c76124879ffce5b62dd0e96259e98cc64c27208d62b40bfe3e482
],
[
0x28b75c2ac167fdf184725317c7bbb8083e5ac5bba937bcfa6cefcb69e4048bf0,
0x248b533f875e5ee8e751cefa4b1d0732fcd30151c3a5cc4abbbb1e93b4655d45,
0xf8692d64a5b69a956c4e2006bfec344477fdf5f0c9aab866609842b9d75269d,
0x1b8a7909d7e7bd4f0bcc8003968e384ac2e8b405ad05cf610364d3ecb982db7e,
0x13e736cc70b7c828a38dd6394ece76b9ccdae2ca4f43963432502fe8c2ad19ff,
0x2ae8da8d0b129a22f834d0d234c8917c2f877ff00dc16215498d4b748fb40df1,
0x26e6d18aea75a94861a02333b5364ceceaa78adfbb742817218ca3af607b910e,
0x27aa38fa051c434189df57bafd80723ee29bdccd59fbc1aa9af11891d3722e61,
0x304dbc0936862356e0024b2a32dfa3085abedbd337f22b89062be614d83cb083,
0x265c43c886f07d025200d56cd246b01670b3e82ab482f5879b10608cc05a37fc,
0x4ffe27a92cb4300e774388edc3147ab9dcc4ab354c380f51ca7a2e7fe0463c4,
0x19d6f1d110d9f873db002ff2ed828905bd6cc5d7921c238d7569daa9b2401d32,
0x19711c41d76f64a371aba62f3f46710dee0c3aad217b7cb00bd12613b24ef52b,
0xe08ddb69d5efd949c3d671e4e78e4fc7628c65ec1cfbc18ba6a101aa19dbf66,
0x240657d67f92b5e4261ace434fd286206c315565378ce8b81661523f0e6ddc54,
0x56149221712b88ec291fc218324142d02873cdd53199679fce4dfcb5dda9116,
0x681adaea79cf457db5701931f0ee2f15ecbb159ed50cf746a15b85c6f8a5370
],
[
0x23af324599683d9b71b61d093d63dcbbd97e44957333d2697fdd060c1e4b585,
0x2e7a1c51da61dd214a1789d6f1ee2957f69d21b1f16d1f9458eb25a406500bd3,
0x2bdfe7eb4fa803bc1dc0052a46d850ee3e091eba8a7f12579682f6f6fd5044d4,
0x1d92e4213d840a330ecbdb08693dbf9a971bbd6229047eb88a03f334cadef227,
0x1f2805084976b142f7c74a416ff439ff1bcd8b8e7b0570130040754a61b71912,
0x99b0a6330926a4a1564dfe94f9a1104bb8374bb518a89de08c591c17dfaa059,
0x565b96659025935d9c025c7ab20b1611db00b67ecc51426b342f8c7a17fed83,
0xf0b9336db5c16d472fda3fb9ac13b13394c09ab9f484ecf6ad2060217b5896a,
0x2a7de8f5ff476d81d393f1d274636ca956f05bd422bc9f3cc0fac0054b58cb02,
0xf26d05e938f8317bd608eff0895d352dca712b653b1492f8c2ea96b26f9381e,
0x28b73b335c72f0774871a2030d444e5fb954979c1c568e112fb911a46c666768,
0x282a01e8f2ce09cbdd862f98fdaba3f9af02443edc962cb34802d04477de1e20,
0x2770d14a220152fa7083040be9b3cd38c8ace9e207073486bcfafcad706748b1,
0x27a573036509a8a29a90eaa34d2adaed5ed1ec6b207274f3c5ca23dad3880e57,
0x2384a384bcc2c4a17ff7c9e3e7d131d39173c431333a9c7c1d6fd7110e25902b,
0x162c5bbc81b44427be4e82c5e5253bd66c3054f5c5b73b28b29238487849a794,
0x1e6196147508bf2edc872c4e897a967778b119f69fb431a7f646d2018eab4010
],
[
0x5a07868a7c95f50a015879fe7cdf1eb6c317e4d489d4515208ddf40a32329ea,
0x2065e374edb1f3cbbd2919dc04d14adb07062dd01ec1501b85522e7e0faf925e,
0x13bdacc137bbcf51d8bc9d281931d6e71122dc6e93e7ffe8b835e3393775c3d4,
0xd3b3fb86a44b7422429a249884c85644af1975641206e610070c02ef5a9f4cd,
0x27aa50a0e5d5588c1486e8e7fc8dda65489fffb866756c218f87e7280cddfa64,
0xb9aebf041146c119199757ea8ceee5abcea9ec42cdb28b921caf21e84847851,
0x2776bde52a1259472c1cc020e719f82191dec3ab7699b7d0fd769dd3fe392997,
0x275a6f59623354d71d38b4e200ce2e9676aab74ea8b8366fce33bdbc47d0586d,
0x12c6f6c83a3530faced60c88f19a82fd12b7d938a79864ed20a545a52fdce11d,
0x257689a4e22f6a8768aafe54218d31de4e409fdbf42319582536bb583313a395,
0x195821b99af2c217404ee582e29889072ba3cd994b74955c261b5ad364e5a9c7,
0x304b679008e8a1f09448423a05889e0df663a2b65055ca9ee5a99dfe13fb9a16,
0x8dffe684aa33f911d35e9a644b4bdbfcd15a4da49b6531816b60e8ce4f6b5e0,
0x72372083f62195bcc2b5afab1038198a3f0546b62d171ea21c37c8f31551176,
0x25547b51b2c6874e4538ca9b34093b714ad36a8f356e4c78e0d66b1f190038fb,
0x178f2aa8df9a11ef33558dcc934971f7697e626cfef00ffcdeb6f3c9c1a7d10a,
0x68efa35bc620124ab7d88990171bae4102ad21dfddfb387df0de0c8a3a189e9
],
[
0x2c5b4a65bc55ac5fbeebde53ce5fa68882faed2a92a7b3f5732832c72f7f2c30,
0x2f36535a83a09cf09fc38a20a725477aec56668f034a364a9f4a5605fffd33cc,
0x7d78ce0c1c87391a06a06c83d300d52524b29f183884e300e0eaddacd05f068,
0x25c7e8faf6c48a156cb91d81a997c6673d32694a3fdd64f5e9594e9f504bad83,
0x1f3cc6f65d9d34370825a38fd1f48f509f7c56171b9e7a624d9b0ecdf6ac4eab,
0x55ef271e388278b1aca34d3cb00116bd6f7cb584b3c69f0de2a7afc8d98deb8,
0xc1a324c49d15f87931821989b8c8437ea9eb46ed3aacf8895fd1cc311053e60,
0x2ebb6730d7bafeac23fc0b457ea824eeea3c55eca634bf24b2ac2a9a21483e1,
0x201e03f1ff672629473a24f32d2d502acdc8fdd2883014de74c98f40a195b3e4,
0x1edc57f174e1322b627c6f9dbe27ae2703c3f11c364b38188bf41d8ca0c1709a,
0x20a56fce37122b7400ab61a65eac815dd180f52fad2835f7fd9649063523881e,
0x1998147edaf3a92ab179c61ac2c36af5caf3e78bcbfb684cfea15db17b835907,
0x1cbfab7cb05e2f28254b230bfce017f005fb4f2dd8935ad11765b347d2003667,
0x151e0bc2110e4300dd82a4c92442c4751c65b294426c8c320c69e61831958ceb,
0xe59e1a990ec00f72edc37248349d7a5a6f7bcaef158110450f1e5985f0a5d99,
0x24afd92f80e57788f40fbb2b79f29454dc485fbafb5a7263f462b7c84b4e500b,
0x1b012224a4f050df841122d17c5ea4eded7c8ec2034743a432a2cee893976f29
],
[
0x173f895e472c4eb16a2aff3b8e0417fb32b83eb1e3233471c76a0550505d0607,
0x1123d3c97ff8e6b589d118bc40ca0b9ac12ae909558f2582551f7a42345b4621,
0x984c132b29a05f2b506ca07c06fe9a6584f36bb87506d2d316a4f353cac5f1f,
0x2d7af834c9cdf1b38c8cfed218f1ef0ce0b9908de9e7aa7a5510c4fb917a0281,
0x1b11713791ea4cb2e17c8c5867502043d0a8cf955384c1c793c506b75fc0db29,
0x26fbf1a351963fbbdab590dbd760ce6284273525a1b46c41f29226c65339f4b3,
0x27e68568e9cffd07f9253ef9dbc356251dc6b2d6a903d6c7046b5e90e1bcdc9a,
0xff215eb1e38dc67432e262df27eda7c3aa9419d5b6e299bd948e970fc35a62f,
0x118c3efe920c9c3f907c867743d35d2ccbff7c89e9c31bb6a17c552ef92b6c01,
0x17b39f38636d5eff5e06eff089eb56051a602bc8f4bf1bb0ad2b2cd10cf07138,
0x235132912db2da07a4750c5ed5df2590e718404aefc48be6953432f64424042e,
0x28a4572cb654261cf9358435923e65aff8f40393752748b76acfd2e3f5755c9,
0x21d7269a53d3712b20543b0039aecc9466520133d299e8442000b33184a39e84,
0x13f1acc389c4f8e752cc7e4b81c37ae2130c60df9c8b7e87dc5fb7459caf4916,
0x66c6090936f6b054f17dea91682954332b3e32d8f20a0ae171d417316d3622f,
0x492ae5f5ac2a5102ea96e60ac8375553687151ae44042dbf5899232c8f2100a,
0x208d814151bcdcddfcf835a958c259a6477bfe4b3392710edf9d80787a25c5d0
],
[
0x206cb038cc328526d0c3dc5af19437d83219751c5ee8f61b0e9e2f5881366be3,
0x160b30c874d9c06704c92c266c7a5b7fd966a62a5db008f1bffdf443b1099a82,
0x1b00faa85136b1bfc496e0ea9a6284cae525aa96612ffeeb514808955693879e,
0x175af5e50e5685ec2dbb1cf7a2cd25d45680f6cddf68d7c0795dec98b87f6a71,
0x104560e95c49febb7a030862edb3a33c2b2a3d414b0536b2e54e25ab36e8f281,
0x12fd67863b2e03b6fb45224fb041ff280e936742b54c8e54d3823e090e144169,
0x1db0e7e01722aad210e5296c36e9103e82d15765c318134d177146a1d9fd5358,
0x247f9c7fa610322535feb0676cff549f1c177d0d39d3f1eee642e9253aafb82d,
0xf705feba5f01cb27b27c104bc93f0c974f561fa26d5614f6a9d9e47d03bc655,
0x306094ecfe63300b2f95bc98a0406c7898d86852330a7b69f9b04b5404b3eef3,
0x1059db5e97f25826b0bbefd6bfaa6e9496c55ef5a88fefe9712691f6fbdf4298,
0x15bd998c2729dbeaccc29b5d6e4f0fd96ad0a6037c84a1a1a785169fb336fb6e,
0x21fde580a19886b13358f18a32d5aff685b4bd77d94f067f44f6e7a93350fd2a,
0x6823a9baa55623732b02fa270b2f887fd3804a85c1a7f2a355df3fbefc69dc1,
0x1b25662843b0986ab1a4e9a766193efca47c70d49364f03d50c5edb5b5517ebe,
0x10dcb11f815c7e29c66be1dd3c5f7602c98e9fb1687c2d825b48789c521fbd0b,
0x28f901fcaa860b0dc4192adef8ea4ae55af6ce432c85e0ce4d073e514ab24252
],
[
0x240c57897161666f28d000b88d3353921d967420f401ce86bbee42be287a4f8,
0x1361d27c42a7b4bd6eaeb98a339592616c0d4d8fceadfdb16468162bdfa88d46,
0x19e1e46536704ceceac3eab991bd806e347be40a0b7956dcd7037352fdbc4347,
0x121f4a18d7b7d9650aab625ebe8695a8079439f2ab00c090279de74726234e6e,
0x8c45f3c4c486f6b5378c779c607b517200bb70b5533bdacef18519f625b925b,
0x600cf26635b2d546431507589739010d1b757ceaae617bf95b8e1efa98643d,
0xaef8a4e47d5ec760e0565ae7acdabe7e8e98972de86dd2f447aaf216ab4cc17,
0x2ad0bd9f71e2785084aa0b84616b7dada053207c418e65f4035be66a0cdc8c12,
0x28d327a1c2d6012d9e69e9a3b4c11ad336d3c0dcdff4c5c84ddddf911eb645f5,
0x11afecc85590543bd2df8ab952be164670a3f32593e962d4bd493bcd3c84f84d,
0xb050c882073a581e767223705cd9510c04c30168c50ffe0c9875a28b6938299,
0x7cdf3309e130f9ceddd688af3885369fbacf6d8a44de4d450667c0d7641213f,
0x5232bf95807e48ad82a1eb4bc481e9b0720e95196dfe361f55c4d1cfc7926d7,
0x1e41936e6bc0c3ed665c2e2466ab9216b9973fe136d9f9aad95878c1b5607c6e,
0x2647635477ee5fa9e7ac5983f92db34d7336646c63c63e2dd53d60b8714bd759,
0xa11d587cb75d48544eec662ad27ca6acfec98f7a8b7963a294e4bb329b170df,
0x1bd639879731823c871f9cd4714e3cc56a6eb19884b73664eed24b11929119a0
],
[
0x1aaefc2e9925fcd453996fda804063fdab276b37c5f51dfdfef9255b4ec10cc0,
0xf1e8f86860c3b5c78bc14dfb67d22c6beb8992123658842f23f75ae3a92e99,
0x19c2540bbb1cd4e08f105437063c945cfef28ae9dd50b97e0b795f8dc5ae34e2,
0x21f08f9b3c23f3a02518114a96929b6d1056eb4d1db147ce0c8882e1b0f7bd1b,
0x2d2193c677bbcd56a74fc2ae50ab4f2cc69aa77ccfc33c7707452d5adac77edb,
0xf528f5912be49455d4323b259e30ce2984d8170601eeb4bd7096b47353ab7fc,
0x8c00c4e5b3467f01901f64f9f89c15bb0b90918d488b730cacc3296691e9200,
0xfc3ccef00d6a64080abbed4fed90b69c5e5803134c22b42cdca0a60f03ec33c,
0x1bce67f4dc99547f2caff1b5c6d63e3ee2565a404190664533c1c65dd9d8d532,
0x1a8ba4f37d2315389c8560d74dac572a4447a02145516287053e6b9edefbca2d,
0x115e60c4e2937eb53c6e4a5488f801266e84d07547a0b1cd91b18f49efef9920,
0x152d47acb9b06c9d12c2138a31416bbbbb991a65dc4d4f8ef91a3dd728e63b6a,
0x13602646b88ba31c0d544c757bd9181727835dbe690c30583a23f37f52fe5e3d,
0x65766d2980331a55c0a39d83be78bd127baee77d53a24268e064c71daaf2b6a,
0x26db2e85a9006ef5c11cd675a267d42efef9f5af90466b2aaf75eea8024b00bb,
0x1dd6b095cb68459dcf6bdadd434aa81f80a55a08e6782c653a93afd8a65f3267,
0x1d3ee85f078fbeecda2473efc2bedd1ba7ec6f4795faaeae3b0de48d3080c625
]
]
".
(** constants.go:4526-4539 *)
Definition txtP_2 : string := "
[
[
0x66f6f85d6f68a85ec10345351a23a3aaf07f38af8c952a7bceca70bd2af7ad5,
0x20e3e914631964e394d269ae59f17efee3fecee512cbb163d32cc760be574bd6
],
[
0x2b9d4b4110c9ae997782e1509b1d0fdb20a7c02bbd8bea7305462b9f8125b1e8,
0x10a44ed9dd9ce568563394632833d8633690d329ae737c8c7220a9b197ee3f46
]
]
".
(** constants.go:4540-4560 *)
Definition txtP_3 : string := "
[
[
0x109b7f411ba0e4c9b2b70caf5c36a7b194be7c11ad24378bfedb68592ba8118b,
0x1e6f20a11d1e31e43f83dcedddb9a0236203f5f24ae72c925a8a79a66831f51d,
0x1bd8c528472e57bdc722a141f8785694484f426725403ae24084e3027e782467
],
[
0x16ed41e13bb9c0c66ae119424fddbcbc9314dc9fdbdeea55d6c64543dc4903e0,
0x2d51ba82c8073c6d6bacf1ad5e56655b7143625b0a9e9c3190527a1a5f05079a,
0x1b07d6d51e6f7e97e0ab10fc2e51ea83ce0611f940ff0731b5f927fe8d6a77c9
],
[
0x2b90bba00fca0589f617e7dcbfe82e0df706ab640ceb247b791a93b74e36736d,
0x11e12a40d262ae88e8376f62d19edf43093cdef1ccf34d985a3e53f0bc5765a0,
0x221c170e4d02a2479c6f3e47b5ff55781574f980d89038308a3ef37cce8463bd
]
]
".
(** constants.go:4561-4590 *)
Definition txtP_4 : string := "
[
[
0x236d13393ef85cc48a351dd786dd7a1de5e39942296127fd87947223ae5108ad,
0x2b257df708d2f3d6785ff39129c7f268c13aef87ee92e9096bd6bd8d2989a74,
0x224a7cc70daf93a67ba74c0f2d80c5b0aea7ec1bb1f4e17ea21ff147c58b0a1b,
0x18ce43c42faa57788e66b11b59c98363b6970c4fbe9206a0986ac7a4438b96c9
],
[
0x277686494f7644bbc4a9b194e10724eb967f1dc58718e59e3cedc821b2a7ae19,
0x27907df41fa277d8c74c3725e5b8be54f4b35d3d0b6e57b26ead3cde3d431897,
0x1b7e85dfcfe013c45746d870fb2114991d43131fadbf80494c01d5b105d44a5e,
0x2c1597f81dc951f0b27440567676ac64ea1b184e65eb25292cc4da61d8bf9824
],
[
0x23db68784e3f0cc0b85618826a9b3505129c16479973b0a84a4529e66b09c62,
0x2460a032cf84ecd1f57096c9d21f5d48d1b21abc6d70277d7a75946997aed17,
0xc7a2ae4396db1838e5cb1ee490a768c1777efac919031924ab242d19be92806,
0x8c2147f957a152ffc37eec7b1cb029c07ecfabcc84489502a6e052aa6f94288
],
[
0x1d359d245f286c12d50d663bae733f978af08cdbd63017c57b3a75646ff382c1,
0x2456b3c4841aabbcc4bcb4950dae4a0f8e60cf0511decb8b67afdabeca0dc590,
0x1a2e45b92aba8f36f92110d68941ce37d39fe27d02b794d53f7b961b7ed377c5,
0x182d95b63ec720b3af3a3bc6d0a6012d4885ba5754f32aa1f1d92ba130fe5745
]
]
".
(** constants.go:4591-4630 *)
Definition txtP_5 : string := "
[
[
0x251e7fdf99591080080b0af133b9e4369f22e57ace3cd7f64fc6fdbcf38d7da1,
0x12873658ecf188d299b8ccd568eb14a4d4307c5caa95633dc296f05cfc966598,
0x153cf8033d8e8a15cde2c5e6b93da4018c5954d00a9274ec5ec6d5101ea22761,
0x9f15a882446823fdca6f6ab15dd8e250d90c84470516671afbdfb0de80fb00e,
0x167c655bf6cf3e0fb64c9075773bc862b24b4ce2f69c8ec198add2758a2ce216
],
[
0x25fb50b65acf4fb047cbd3b1c17d97c7fe26ea9ca238d6e348550486e91c7765,
0x27f9160806de9ef57ddb4243f839e4b7e8bb293ac176fdc5b5419ed73a07999f,
0x16fceedd703bbbc2bc6f1d792e501939105b044b1b904d3b110110da983ccdc2,
0x2eaa925d06b6f5a77c0d5cb20598742791495cec84593a57ee9fc4c9115ae7ca,
0x279b324735fbc883e24f191ca7039f9986115b9e6fcf4946cf45f08ceda2dc8c
],
[
0x293d617d7da72102355f39ebf62f91b06deb5325f367a4556ea1e31ed5767833,
0x97d71f1fd579a0d0f436a6b36165cd23a9fcab03ad25e7872cdb09b4a0ea0dc,
0x1a9fd26611128d592d594f51c251dbf4eff6dccecbcf2ebf310e34bed661337e,
0x21eb30a57e5912ab06d18573fc546b2bf3be840d5f5ede01f91dd2bbb578dcc2,
0x13abaf72889b31372b1e6f48759371ef65bc57d28ac2f60e6d227eb008b96ced
],
[
0x104d0295ab00c85e960111ac25da474366599e575a9b7edf6145f14ba6d3c1c4,
0x19bb8abf6a012cc7b8b974039c6be6df31446a51702b39a8d90ae4be7ec33ec9,
0x11075889bc0dcc9d6f06af3012f04aadcf9049de04fc775f8fa091702e70b9bb,
0x2e4cb25599a3dbf07de338827b28d16b9c8fcab8fffe8f2a16161be6a521a358,
0xc7a700b33fb23fc642e0e8671deb84d05ded8ccbc968d15171182e158684e85
],
[
0xaaa35e2c84baf117dea3e336cd96a39792b3813954fe9bf3ed5b90f2f69c977,
0x2b5d28e8d648bffe0fab59e3c7d983a4099fa0a4c548df0006e6d0f4e20206c1,
0x1a96c37c461ab8a38ee15bc2784c5096d30d1482e57c2f861bab95584b90d84a,
0xdbdd3171308bfcd3cb8b8a676592858b8652e902142beb8fe4145002fba8e0f,
0x17ac4855f295a3b8fb8ceded7f4b39290647a0145af56b03b01e957808d66fa7
]
]
".
(** constants.go:4631-4684 *)
Definition txtP_6 : string := "
[
[
0x124666f80561ed5916f2f070b1bd248c6d53f44d273d956a0c87b917692a4d18,
0x18ce75a35f7297cad2bcc25f0ed1bb4f7c592eea8c6903b19850511ddb83274c,
0x138f93361c6546d69015ad48ef50af34fa9e19c6e6844a847eba9d908572052f,
0x13c29b24c0e38e65a1b9428622ba42931bdb65eb5975e66d3c496c7fe6f7a30,
0x211a38485f1e9db425379f4b3fe9c20474c968aba2ef8a4bbb898a8420d0fc90,
0x2fa4d773833d944be46ec798f7d16e9fd02f51c086141af5d69acf97e9a80b2
],
[
0x11924f02fd19b09255aaa1cf46ea0518e3d7bfeef47421609491011db0bd0b02,
0x2c001eb6b378c49fc5b37aa41c13fdba486bf324eae0e0063ff83551827f338e,
0x51071183ba1b8fde055b8f273005056fb37684b241f88851a5b550ed0cbc452,
0x14201055ff5412f834d761da8017961213666e5c44d6c5a8237deb4d0f734d79,
0x182177db418ecda99e6e9999c3c0492f4ec27a89b2ab554dc8165da9ba8c9762,
0x1111d2d4d2a013e33fcad48d574587e3d7f7f6b484d7fefcf933dc833d13bf28
],
[
0x247fa7f022304a1994ff505456c2201ef9b717369498d3ffce446601ed9df845,
0x16e74e9c0932c76182ca25ffa7dc6ae62b2cfbe19142b2ce1d95ec0839d7faa,
0x1a13e7beefcfa55aef7815712c7b350b465c0785afe7d6b356342b61047d07c1,
0x1adcf63e81b22ad38811b20aa6175ec41784eb99fbee0f3e56a15df0c1ac5179,
0x2f3a76ad0307b740f6e6e7aa989335c6000d930029beebee83c0631b3b435123,
0x24dd1c38ec3e47cf711221cdaf4b2ccfc0991a178cf7df2f3d1b88f858763c40
],
[
0x3fd7b19ef2c861f22f77ff810f54e277bc94eb76c02d79d986be3dcdf051c3f,
0x24de008c4b20c4dd769afa3b377e2e72f0a74339f53c3f6ba8b84b0a85fbe9ab,
0x274ab81953247f18a26dae90d93deb1f33ea243af6aac4e05e117e233b922bd2,
0x16a796c4310ddbc2c435ea5ef0d6381e163250c33485426e97a566ab6f2bb07,
0x1befbb4037c8b847d2711cda8600d941a1583cf2fe06a8ae02bbc26e180259ba,
0x3a01ab7488d6cac69f70b90101e5c8beb78bf65a79fd6068c9010ec2e0fda4e
],
[
0x18bd41239c3e71579a677443ecffbd555a81eeeea69352a68b67c8563c0c2a06,
0x2a28f2409cb364d31b858844023279404e2ce02d38430be77b2755aeb9193a56,
0x1b8e6cf61af064c9804f1888a6a83f6cea7c57e574c229f978aa922ddccd80da,
0xca6769d4383398d1a04d3d7a6f3510d85fba7f5f6e6d287d447908d11c71153,
0x125428fe689ac0be368c80b67e8b2ab83d8163ba30b4391927f352b3bf3dc5b0,
0x30516fe884be9bad887032b15a83c91d84147d44fe15c90935ec4d421f5ed05f
],
[
0x2d78c3a5d28de9ff35bf0a257635196e5730ca7f40493277078cd75da8b4ebdc,
0x2afeb1a63b374a502180680156748121a68fd7002114733bb039f74ad576c0d1,
0x3ddf5c61fc2eae153e94adfab9b234d07b261ad228547ba9218c4caf6cbaae9,
0xc2e8c673f27f45ac1112d92cc8b81ef4af42657d7a114d2d6bcc4b74bbab7c7,
0xda5ededdd0fdac9af41d58581e5aecafee671a5253023205aa9a2b7e1df842c,
0x280364612aadf31ee5b176ccc54b4a5f961cc782168c8f83ff2ab5b4d12adc0f
]
]
".
(** constants.go:4685-4753 *)
Definition txtP_7 : string := "
[
[
0x2abd9e16b7b48289aa19cdfec726fa3fa15cc1625102ae511bca45f39d337e9d,
0x90df29b70c5a783521503f92a45753c8bca03a74627a24c44dbca6eca32ac42,
0x11a48e9fa064121f52297162fd169e051d154a0e203583624a16c73534430b9b,
0x1636fd9a0457ce75aede0821e036773e39c37adf6fedcc7b2cdd72254e2ec7cc,
0x2e64b2e0bd6fb47559f585b63e8dd15b430058a63f2076636052efccdea98ec6,
0x2cb7863886cc4ee1640210d29a4a329d93a040ed45f2744c25731c8fcd15f0f8,
0xf3212046ef984438989c355db0984f93ea4bf99de1700ee0185886e81f2ef43
],
[
0x1b4bc5885d1cfc8eb691875300db5a0c7362ae381898acaf8b63cad04ecb36c6,
0x2c628e21a22008733e14f81e953a50072ac800560554df9e97971a56c509222b,
0x1cb1d2eca719de8ea352adccabcdd100c4fddbd380871e2190e33390b8bab1ef,
0x6a0175e0d8aa3e1b994a177af69a40bdf6dfae09c41d2fb3d8c599c76e7f07a,
0x5fc6589a1d1d35b2473c61ac293c6d6cbe24fab12a9086c0aee1f8d1a28a883,
0x26342b8b16928328123d727014822f00f4fbde2cd45046f5dbb6b986edfeb632,
0xd7565999ffac123203ee5a0699bd4a2f4c491fcfe05676f928694717e572878
],
[
0x8a72fbb55dde3e93c5818571a424a54953695029eedbcf91eaeb012751c7f83,
0x1567d8f8711949c036030ef808665350cfe9b648f13c675379aedd83d9b83767,
0xc9037b1b5cb3451595b4f8a1ca80c3d72ceb93d6d58dfe8eba02e88d211b281,
0x183d06dae1a0ce53171aa09f25f25ee397263dbad5306dd1b7428872baabd5f,
0x7da96bbf5fc4458741de810178e19a89631a95f2e0cd7e5f2783cd237f3d911,
0x1efe4b3bfbb320e15ac79fa9abd46e4a19b21f39bc40143351321f658f6cfe7c,
0x900505bde5ee2d55f5baa932e38805bd914afbcf3fc854219cf41d147b89db9
],
[
0xf95359a1f6845d4921892f83e500bbb1b3d3763d8fc762400af039b0abb83f5,
0x27630d326f12eed19ada60a1f6c496680425b457f42e8999f49676af0b637a6c,
0x26920194603a11727525c5e7b267ab6580abe2a7912789eea077a55f7ec3204,
0x10e5dd7a0862c4aba24ece684e502d3d6132a99d906908b20eba4f3466812e42,
0x2d30f6e371ba6fa64853fca459d0d6e0edf941c3e8177ad5d333d4eaecd7dc7c,
0x7ed952f7c3370e03880bfca6348ab2ad35bbdf9b7e9c266e7885b580edd59fd,
0x25b7a438b7dac4f0b36183f18766ce503f69d6c1d9cd29b986d7d2b8b44be433
],
[
0x16f01751ce985328afde34d81619defb43e6c7b5dadf52d0f82472fbce7770d9,
0x37e3c16dbd340ff80f49ee4f7dbe1098b474176a92b7a6964a63f2fbb8acfa,
0x2cf7810985ed56d898150ddcbd42edcfab6442f0d0a7f637693f676300c85c5,
0x2595dfbda733d0477a01cb6693b93eb4cb711bef3784b5fc9e17f1b342eb15d4,
0x7d9eb804f0a999ec586c58164da8467a481c1975e27b951f6f18411a7440cd8,
0x56b8df70be9577f94b6fc2a3a94f736d9c7b9de29134ff3a524e406e3143280,
0x258a0dbb961fc61bffd39764fe6d3c687a1061b59ad00fe85d1c18594b7e7270
],
[
0x1c391626328457fcafa629f3e6d33e2555e8d885e3c07cecc8af1f4d56596417,
0x1814234ad66f16a36711c9d2779c1358ef58f650cab5cfd95a0678af36224c98,
0x25965b4db95bc7104bffcc6ed99af5cf5328012a3a1a35cdcbcae4ed2470175a,
0x3090eb08e04a2d235c164b71a56dd730c6b95e5a2613d39cfd932b90af23ad0,
0xaca5e46d797e1748aa438d2e2967569992dfcd41997be143c3ebd2a823b7660,
0x18e6cc7c6ba50e61933de0f615fd4458d39a6c34c2f241a4cb78dab9dd1b4283,
0x216fe55a6f2e8daa2523b65eda5367ad3a3a6c55856c5447f398a280e57d6535
],
[
0x970f671b9ba35e3e3c642d1e0b8032023ed5bac91c2c1056f03965a42c5297,
0x1bfb7975cfa9022d9bea2acafbd020c85cd3f1091794d28413510f2d723ffdb3,
0x20c27ab9c365c5d2de660b9b31d4a406907c506b5488787bbe2de181b76e6a7c,
0x28feb3ed6c194200a579ff340040be172171c1f7980e63214a0b3f7603d68a02,
0x100d8a1a7ff31b30725190584c830b15c0cc5a41d9d530ed57c0bab464368b5d,
0x791d241f4743deb4afd41d9989448220d5a1d101bd96db5ab2968b981aad486,
0x1749c39995115eef14e1bcb1ccd4cdfc5c928ff14e078b38f5af326ed6b1e099
]
]
".
(** constants.go:4754-4838 *)
Definition txtP_8 : string := "
[
[
0x1aa4d470abeaa2357079129d114bab1170944f929fc178216ad847d4430f3f27,
0x2ed795314c562ca0b6d7070712495423ae6bea218cd94677d06e1043327d5d11,
0x1c700c219b9fd0ac323c67f0960cfa94e637aec4a5b68c8c8c579da52123752c,
0x126587f4ddc000b06931fd6bb92c2497aebd10bf7d001a3f664c6d6934225f1d,
0x1d322025a71f8a8445b7c50d8020f3d755b7ecef465abebec16e0d391bf9bb8d,
0x1d3fa515e56ec187ca7657d279ee613e0f993ad146ee2b37f12d142eb8108e07,
0x146acde01679ad962ede1caeb39836b4d818c68db52a9a1cde771be24b2e5e20,
0x48997cdde9b1ec6f3bc2ef708b27929596d02b366f44386093108703f4a6106
],
[
0xe1f4e4d26e9da5f8ee3deaf48b493610be61d7d3db1d9754feca30879adc644,
0x17ad6adb37b2fdc36e43baa800fc4a0fca98a20a2ff9c184a838a1bff5baf530,
0x14583143fe69954ead766939d693b018c9c6d99e86ba2002e2960640f993f19e,
0x9664ce4670db8421617eef97a4619d9914046ced174c5907e7305424656d460,
0x51301752f12f6de8c23dc31745b2b19b9bb7c39cc1ea08d08738c36a5e85885,
0x226238a28654ad973e1a259a8263c6b4aec4209093ce8e563b3eadb0f1144170,
0x1fd98a7ceef4a6d3b32de8b124c7e024e57c37498fbec5e451b92f5666a9e441,
0x1f471d25bb7448b69310b975678ddae2aa9080ef691242dc6871e6a680bf6a44
],
[
0xc298c14356a5a7f226c5a549e59184900385aafd8ea41d9746729964ef75f34,
0x4ef313ca88e6a46eb38c9aba804ec4264f79f1dd0c05857bbdf427a86de4483,
0x117bffb0996f3b8796bcf62f00e93cded9b3e7b07180721f2c01e53c98502f42,
0x36d342dca9ebe248ef3674d1399d5cb02a51b6ce92efed9de36f2adfc837cd9,
0x1521f1fad861eeea8bb068264dcbe68a93abb6076fae2f9e17066e4ff5be87c,
0x2d6baf82ccebf60b0fb1632990d9bff876ce740798a6613203cb078a9ca1a532,
0xa2ce4bc27cb25682f84ebfce048f14689f31b45e346b713dfe35716b9447431,
0x1e1b9c1ae86ec688bdae2fe7788b7311114a3a8d6f8d7fd8ac4d79a3cbb38e4e
],
[
0x19e070982d3ee675e1622ca20d13b2375e528b676706882eb8f1afe1c5045ea1,
0x1562e5b3db42e4e28c9c3c085cfc8fe652b68e8bce182e6e1c84ab02661a8cfe,
0x1abaf63769a9a837a0d09e1dc6efb2dd1dc312b0c1c4a8c066663998ae04bda4,
0x338e5e98906f68a17cb1852bb77b5f42f287cb74e3afdb066fe966889db200c,
0x2d74e6c13b0856c0dd85188c8a80f41dca1e9791b1042521e7bae94bb36d499f,
0x7672fca8816914835cccdbbee62aa422a95d77118fe52444b5af200af0e00b2,
0x276718d84a065a288179b23b9b2d8ff3f6e55cbf97d873ad1f7e9a2cc8a09649,
0xa1bd98c224950369af79941d860914b7cfcca9596899786e6bd0889482641bd
],
[
0x333e2923992e89dee570a650125eda75a20a72e69e10863a19d17b7beea9295,
0x1a197674d40c43447787e6079278b5812ccb17996403315e0f06230e2dbe016a,
0x1ae4af74d44320001b70a0a230327d586b0319d53a839f5fd27fac9169085169,
0xb169fad164bc7690cbadd1ffb6ab2e67be46376d16629d663b0b83ea7b7e4f5,
0x154b82a74672e1433c3417f9cd1c53d4ec0e4efc9d4c2655eee3c24e4449655d,
0x2c54cb56058d37bdfac59708d54a16c1c7cef8012ae5d1cd83d87140ea73adeb,
0xaedbd439fc8a60c641e55ba0f17880e00420bbbe5ae332855e7be146a0a0b24,
0x1b87ebdbf566fc8747d2430b3c45edfa8ea4f8c9770230ff4091f58d6cf6b61f
],
[
0x1944aac72bf6fbcdec04361238c3c4d9510d5f07439a1b6ff41f652990be0139,
0x32aac2605d772f1fa6f328379ca86f4368bf679a39937cfc508a58e982db9a8,
0x3a38b1fc1f632c027894c17bbc4702d45616649d8e3759d1bd4239d89c9cfa3,
0x26492ca60cbc803da9930bf40b24ab2136a9275fa8b299cfc2674ef08234ad11,
0x37a36e914e568f3de0d6be824fb24b107bfc8c77ed767e707f8aa5f0199b205,
0x5de377805bca799a16d073b79fdbb07a672e7597d16df2739345938a20c5b3,
0x2eec7d749447d3df1f1c2da415cfc4b448b3fcd473b9cb5891f36db1c33b5c17,
0x5c539bdc0b98fdf23e2c568d8aa039f8d4e200a6da374c8e764b530e9b65d2f
],
[
0x27d802ad019a42fd04892ad167d9e83596a730605890401319661675736359f3,
0x1e8382dcf318cd0d7f58ba77c1e4641ed3412a480f0b779ee6c9b73147b09d2d,
0x5fe56b2e7f2cdf071f3a588f1c604b2ab62cf34ffc1d2c72cf8a86079f01fd4,
0x177bd045809197d7bedb995ae85f213e19c1e301a646a8caaf7c9f3492042b,
0x179ab9300b69ae8b9b7540f256c0947b8dee0e53289ed0b5b7d0ef09fd10826a,
0x2c2ad35579f01d21b61c81721de5f2787950facb1755abc12e63b0ade9c66e4d,
0xe78c7c5a33ddcd2ac7aba36f3b50757bd7e867f9e6775bef50c85632f870959,
0x2010d6aaa2a1cc21415a72760a1a9d8e1aa82111c3f91e1a35f2abe8b79f2085
],
[
0x2bd05a040a0987ac6bc01f67242d54b7a2c527a970ad2815b273471eb9623e73,
0x2f337068a0ab32fb994362be568487a5c9974d9ff203f3db13234838c8246469,
0x305fc4e93cd1c823068e5063fa983fd71a9804864231e37d61035bef75f60188,
0x170e3b120459d017daed43224c80f6425f59ca2260178321543bb556d501c090,
0x1e1ceec2c1097c4b47a0523f89c94a42f52f2e011da379b6a0e57ad09973e16f,
0x13e72b920d7df0336d643ff47f37bc44888b98f7ea8064d5c96f8d39d11834e,
0x2fa9d8cfc04dba7c7f80eae1154d535657bc7015459a3df9dbe47ec7044ec009,
0x288ac5e38d20b5159d4c37374d8ca702decbc6265b6396d30b2c2959ae2af9b7
]
]".
(** constants.go:4839-4941 *)
Definition txtP_9 : string := "
[
[
0x190f922d97c8a7dcf0a142a3be27749d1c64bc22f1c556aaa24925d158cac56,
0x7341fdd8b6d7c94a710e78e47ae71d8a2d2c45bf48dcd6fe346d2f9263adce,
0x1c4350bba48cff51ab2e0c56301b9d3b289a6fc4744b61fb90dd5bec31107ebf,
0xc6c426215bd132ce2efae38e5bcd7cbda5cbbff829320f99be9dbda88fa8a3d,
0x2810b0317abd6345a234fbe4661070c9bbd1712c64d04bc8430847e6a5435a22,
0x16ccf6000486cf0ee9eb858de4de15afda028275ae86398b37a27f1586257f4d,
0x1756383b6b2b1db75e494e291804c5ad7d947d6c79dfbc5e72009f11b69c3503,
0x55fe8568018f82fd47de970828d3b5f30fa7f671670bf1b615f8ab4b5df6c4b,
0x21b8cb5fcab5ac1e4a8e968e95a134731f85c9fb488d200998c1152f49d3c599
],
[
0x1f8d3a9d2d31ab32d9bdb6375170dbba89f6f8f74d16e4fd02f3675d5fe2baad,
0x3d8602794854484bae8cefc996d566594d166c98e8dbb73e70c0ee829da35d6,
0x1c6b76e0d60e628fd7ca0d7d60de7382c8c7ffdabefcce98d45a1042b4330121,
0x2deecde3659cb16fae536b2a1d81ddc50da450c1e96c100a58157b0b2707ae8c,
0x1ecce2c394a577ba99982bf4035574776ae9fbf51aa4b218a363eb0bd1b743b3,
0xb754798119ccd26f34de2ad1caefa4fc586ec4d6bcad8788a831331802bebe4,
0xf246352b2864232a8afd890b5a5c1114127ff9e80e539b5d922b3d53b4c2cb6,
0x1d6fb6b7c89bb84d5f7fa77fcc40ae0bdb914388f6578747f62f388344139ce6,
0x1aab4fcdeeec99f73a94f5e8503b377394eeea13c9c345d177c7b97923b1014d
],
[
0x230c694139416f40422d713e13c056c45c3c631b346854523970eaea58a37df4,
0x20151c663660a16fc26c7452d683b1ae0a4bfe25e01e2d2ff682d6f8c5ad91fd,
0x22d746e18a8eb6059d6913f3d2219fe1d1abfcb21936bf4462f3deabb86ca232,
0x12bf39e8f879b7dfefaa4be7d615736957975d6b386c0cc89bb81a1b381f05dc,
0xd639e4276aa71f97d6d061929e08d78b690054d7933907c91989891d7e04496,
0x22d621427b2b65407fda26214625aa8cdaab5e27bf99cb8f8aef492030fd40e6,
0x1f9ed3d81ff1494a3e555e532cec14085a7d2897ca721cfb41627fd387d4c6ee,
0x1202c35b5378961b68f410413270c6c5eb4861f5f016891a9d3101da67f24c24,
0x1fc69a3e806ab5007fb930b1c0e8837529f3c18357d74533f14c2152147b6a88
],
[
0x2063a461ad06315ae5992a53a14bb598367624afc2833ccbb83af92ca0f6a334,
0x14be2c9eea6708b8055784ff7a6eaef5f2423ecd3c987507edb4d57f42263c8a,
0x1c94e3008e7fb1ccf9b36a3b272b4ebf56872e9d3ad09fc7fec8b73f3edc8dbd,
0x19c33a1bef2695e72cd132a78c4893d762540fa2eb33c56a7e4b6f88a15ffdf1,
0x129cda4d6b758aae7d636a11364f08165187bfb7cffdf51c90e7f6feeaa44d7,
0x14fd9137c30861213d9081982e9c1e3627180371bf7bdde642ce8212b70a5ad1,
0x1835c38dfb0f16b1ec8a341397cfb66317dd543c48852d8ea875827e2d5f68ad,
0x70a63f4db1f63477a7245d0577d38f8ecbbd9fd8a253adf5e36c86f285598bc,
0x1c4546e0f6a7ec769233d0ec55edb3cfbe528b846ed015e41d063b9dd42bf1ff
],
[
0xc574e628f84b6ba9d17b9d2bfd4747e06dd68cda2383d64ce365927098c046f,
0x21e114b50d11303e7d5e39d69abc346d8c062b3bc70b5a88e0d04c104c89e576,
0x15c4bb533ce05422d3201cd04a12d976dd8d4b41ffb77dbc5f58904d9fee034f,
0x14f45f4497c4a67c90f50bef58ae132c54459facfda9a6afd38dd06113bd09cd,
0x154093b24b8ae3e4c7ecb11ce7f6d10326366c410153cec3543b8f8c696f5fe5,
0x80ef3bf4cf0ee1d45e6e64fb415c76bb901b1ae802c7ddc2f8fcf9a7c4a8f91,
0x1228c23f9d6c7b75373a17d421f64b589d7f486511f846b19d5b5a7a4ae888dd,
0x7d4d3ae7019c26ac7038b866eb5f0b9913b54315d879065236c20ed87c3f2fc,
0x1df9042167db948e9c137df365881a2137baa8afdcc75f9985d2e2a54ff2808
],
[
0x276428d88040a3e0f442424d2ffcb8d19becf3fb6ca02c1b5c61b5ddc53ceb90,
0x2d764f3f9ddefa066b449acde74eb4270b819cee10a4125abeb091cdca204756,
0x106913bc4e38bb6868247a3ddb23f7ac12b78d688df4cb4cce0e2a0027317fcb,
0x2968de39216f3f05107f5715ca891c8cc9a238893d7c75e8684813f9b8f489f7,
0x20f194b853c3b9aef7a751d3922d17428d595a02f6e9562f568e2cf07c928ae0,
0x30593e502ac9b6856131ba8d187dfe8d53ad20d4ce7a3b8d89ed228c91045401,
0x2dadaf44fe7fca4988d5777f9324ab2aa8606dd3c4ab4cec318e0dfa9d02d76,
0x2b30b0b25fc57a37cb46759047e4c1906a2d64b1da6bc8048d683a3aae105814,
0x2af620d499b90b1b8bdfbfed437d5c71ffe5112b22d538a33c9511cfe434cfbe
],
[
0x24bdf6101b2f223174e869d6aecbe8ea5b04a14c38fdf1494393cc6fdb3e42a5,
0x1a8803986af5a84f9aeab49f048c67ee6ffb4689ef31cb51eff59977d250c4c9,
0x2c95ea22f6df6c0975156b08f16516ca905a828aaa2fae35c5465bc99ebd0b07,
0x17aa91194ea3c39030e17603d9b8bb80fdfd271fc603180bf0ec0b49206a76b,
0xf6884885a376b75b81ed233294372cf65cadae30ff9a657ab93592ceb935c95,
0x16a7398598ffc414f79d6d0dcc11eb3830bc6b97917ae1d9c0486fc6a162546d,
0x259a2acc8e87e4a08a384199ee3bdc03df7a3a1b07c83f49fff07b4da49e4ee0,
0x19cfa837f30749fbd33925eabe3b222452dc4f4569c826e602f2397007c0a858,
0x22be9a5ad9f369512913ab2213536ef1ea927d91f42c69c35be9071d3208dd5a
],
[
0x180fca184150c0e354b4b3a4a075824d4b68e8274943f4dd8b0c64eca25dc68e,
0x1540dc30a1b9aedaf029e5ee97b63a63fa1a47a7c59304e2bd1fe7947ce6774b,
0x302fbf64fe705ee3a34e33211937a3cb487838f3a697e0f77c173999486876b4,
0x202f3f28f786f3047f7030428878b673a3152c0500874263b99f2a3f3652eefa,
0x24145768e616bdf16b3099e09e9e56f114c3ee6fa6e49513c2c4f2b3d0002b54,
0x80ecb13362f44510286df98f696ad51beb124014f31fc8cbd9d2dadfede5e55,
0x10a2dd7c6bdcffcaf5b00340731e2da029f81dea7271c8c19825060cbe5db6db,
0x17bb125cabad9ea535325629cbca4d37e5f30a3bc3c7f12d1aa1b63326974fe6,
0x1f5576505ab6cf76adb88b8a85e1bff7d1ccb35691118d4180034fef90d2a873
],
[
0x10726dcff87299c8532159976607633f1bc2ad24453c1bab26b726b82d756ebb,
0xf08d47f49171fd7d603461458053fb30596012a345aca5e6c8d307c5ef68130,
0x1e1e54bb56826529a37fb6b7bfd6af40dc9da70e6f6bdf7fc89787a7a2ed0785,
0x275c0ac30445ca28c7836765c9877e439f0b1308e5b8b5bc30be95808c9b7c03,
0x1d3ecd8624f2fbc7aee4dbeb91ff442a018b9a60b23d7e607ea9eb2f6ab6c239,
0x237522466e8ad65c715717c5273d65815a10185498c9e71b48fb441d90b5e3e6,
0x1f23b760586a694ffd7cba2757f935ade52b1b3593968ada9e0268cd71f6ed64,
0x36083127b4a9a1671954c4ec341dab8d8419322c722061075861b41df631a9,
0x236a813f6235546014ac3a47d20bd75b4b6357e043e1fba18a05ac59a9aded9b
]
]".
(** constants.go:4942-5065 *)
Definition txtP_10 : string := "
[
[
0xb1e797eee3f15b88ce3a1fafec88da1d6329ac3c34712db570de886cf569098,
0x2376caeace68ac7d5504c33a2219f5c7c5ad25784cea62a8df008c4fcab50d07,
0x11738aa054dba194b2e82013feb222a4257eaec8a01f131fc657ee766f408d04,
0x22683ac3c69cb11bc0879ea8b2a5c88aecb222d25c68a660a2f4999cde166655,
0x713c79d90ea4f0449b01031fb6149994fc9b764fa494a3b0bbaea522d4e48d3,
0xc372107400e1f8f8e93964c84da46d78197aa045614a1dd700f1dce65779437,
0x5abac870bca413db4ef84c71b44676ff7e7c741c9b5e3f3c8efaa73e446c02c,
0x11c5eb9e0e5c1669df902352e35eff4517033d2a2a946a8e5fd1492a3a141229,
0x20caf8e87737232b8c429d7f8e9c9827cd7fca92cbc159a319567e646480c7ca,
0x185ebe5ac788074f48748c8b4f66564a581e615b3df9c78fc5ddb70b80475d3
],
[
0x2fe429db8068e61b82624f25766273cd9fe6368ff097eab97aaa09be4c630e27,
0x1b1d1d024385e8a3b81c435ef9079a52dcec3cf811253a83325e7432443ec02a,
0xa5f2f19c49d9ae6d6d8acab3a944b93221a074e7a84939dead82506063120ea,
0xba8903c5a36e9ed67d21b2297f06616760d8beb3ef96c69dc9c843bf52a3015,
0x2a850b071614649f6e6ea4c4382d7aa9981736848c3bdc0cebccf3bd795c65dd,
0x20090c8c6b2e41e84178c0700c9f81b1e128b15f65806648c6166ca8769ab30a,
0x1f9c5c5cd58a682a6155b2db3923cacc1944362035acb2eef2b421fe5bd91f44,
0x2a2190daf9de7f46b5c80235a0a468c68226c193ff86cc8a6ffaa7033626d093,
0x2dab478180d47e197cc91da2f1ff30bc0fb35da934ba38c8e5587e005cdc2f05,
0xc38b0564f60610324268079496ce366271d5693ed6646a6470acef4e779aac7
],
[
0x2e750867942439083365d21fe760c7dfec9e3593c67de12a4255c6b01648b690,
0x77d21c1db0df5aefc4a82442165dc0c6671bf7c8ae708c8f9b6d44b033f2139,
0x1b974a1b3977e8bf679394da2b702e724d2fde8aa4e60b83c631de610d1eeb30,
0x12f77c314190ff649ec4a608780c3ef7bd065902802f2bd41a93a0666fb8a90b,
0x7626c698acdc1e4ec6fd26aa192bb334d96a0f3935e5a88a8d7abfbdade4f03,
0x269aa03a5af8a48e20ba3147943c07e1d1ac7760edad58d9d03d0f45157935d1,
0x45f5c794d9706b43bd71f2a4d4f376bcbb76c7276da8fa942eb766955c53efa,
0x6ff77c4c464330deed91103d652330809d17045c75cca24e8b1b0a61d572af1,
0x29e529381ccf3f80fc5d54b7c39adfff8c2ebb5dfb86745cb974a21e9467455,
0x6b50f490125ae0bc287d018d60c4d6752ea3f61ad3e939622c1773df67a7f4a
],
[
0x23237985a96b177ff7c01486ab0d603d29991b8324abd6b07dbb96f5c21ba17f,
0x2b9c40e97f4e7e6eaf4d342b420fcae7bfdebc3460c120b7a4b99240ea0db532,
0xddfa16097871dbb1337b5ed7ae8d2bca1e5ba44e482df13dc7ad593ef27a5bb,
0x165e20a2a8ea0382f56df39ade0accaab08fd9db8a7657b74ee54b114393aeef,
0x174b9be8f359863993e57e21e4c6fbd4b4a4d339d943ede1d85255ee48b3ffa0,
0x304b87fcdd673ea0ae58bba75c29249f964913b2170aa9f23d4d03894208ed87,
0x278ec34449ad1c5182395a44f2826314db9fafa533e518a5bf082096c2484918,
0x301cbe6e44e903ab193531261770925dacc71b88207e18f793f59f69a4347771,
0x20334328490fd8682bd47066200b77f9509a72a11f2d91d456220c629280aa44,
0x2301d3af42d47b43c8a8052646c069e046ee7d180c62a5d36e52dd6f215bf37d
],
[
0x15ccec857b25934ffd429af92c910db31d00dc1c3fb83745a31d8131ea5baa85,
0x2655c9fd294d40b9dbb9566609c264c9e602c777c8701b1b2b542a5f08cf976d,
0x29898ad417130c472e0c1da3b017f7166e3a3eb80481efa32503e81a3772e5e7,
0x1681ed2917381cd1217a0c9a2f675353982a438cb3e9108fa5b2048e6b7e32de,
0xdc075092f8f83009ee73cd35e511ac13eedf5e3999f9bf5b41ef3e1a15a8fcd,
0x837fd755c29dc2c29036c497fcdfc23f95c7bffb90a62db5cc43a25e20054c2,
0x19d489fa1fa1ec6441b82b735dbf0b84788c542263d4c1ae5335e49297ed4bcd,
0xeb25d1b0322624190db666759db3c82bc9718a990288d865116787e8c527351,
0x19084cece4945482947cfe51a1f6f4e2e216f5b54742b9d71cc3840bdcbbaabd,
0x3a99be2c75989dccb246bf31a58f88dfc494ce2569c5d8b18a9a876317ecef0
],
[
0x17102ad2d98043e5509e76c331e6b22d5fb62d074760806aa675764660eb56d2,
0x795d5914d87c0dc8fbaedfd46afdd6451258f80779112edfcdf1a71d23af4df,
0x2c202548a326cadc3ee595a16a2c2d54ada779390f7bdd4c4fc9417d3e463d03,
0x181db647369841eb58ceb7a1b9ef841a7f3358cc6f224152dc7ad3c1d3b1c1e8,
0x26e7aa2ef4c91ee3f704849f4c181fb83b860da15f62f2250c792e0ee66c0ae6,
0x17189249537630e942f5ac39c1498bce39996c15400d052dcb6cb839aa45322,
0x23bb4a76f79b77f9f6b4940ef2538c7d60d69f1fe9922d66cfb92af9dcd0867a,
0x1ab80a8b5fbd7923f0cf79707d56f7677d1071e924cb497486766a4c4bd7f6d0,
0x1f8f4c40a0cfe0d05603433a0ed2d424c7fd040077b0a1642c25797c20d22d16,
0x29177f698bc5a897ef9aa6b915189f689efcfd88f3da8e60b84b9bccc2ae33b7
],
[
0xa4ecaabde9d1ea11c81dafa8d5d4869bee7ad0bf4eb78397b71b8f989cf9812,
0xc066f7a1e10d00fd3e97cd8c67212c28b43423b03ca4ac03efb4d8a376ae098,
0x1a6947c4e87ca0c30ed9f47004e53b7a45455b14da41f79045c2405d2e3cb859,
0x2481ff49ed6259def9fa646c167c8864061c04cfc022051f83ef8a3ef8db5819,
0xc13692adcb86437a860d6296d74b4253e790cae6f41683b99c1760d09921d37,
0x27a6be35c45e5f46b2eca0aedd98f67638b6645acecf50351c5a9f3c428b0e27,
0x4660af4e63d1c9ff6f059b75dd870df938980e43985c5607a38dc0ac8d273f2,
0x2eb8302f1381d9118d9c713d50e117f92837dca8a8610e9de759e76e8ee987f9,
0xe9f931dd923dc4398ac12b101aa7b5e2a22f09caa416ff8745821ff165b07c,
0x209945fe475f6767f668abc045e0c47ae6cb25cdb1efd5586da6c4e655d68e82
],
[
0xec1821648fddc448a1512aecc8ac37714923981940f5542737a468d4d887c8f,
0x1049076d8dd43ffc6f4ea10a82dcd60dcf4d60a2125a1b4d8c4ff954e7da3380,
0x192a1bc8e7dd6203116a0c40d58111850edd5b50f9d6e882d16f95fa6a76d80d,
0x1beae2daa2a697afd9b1388dbcd6c93731fbb4eaa0fa439f92bf777769055293,
0x1a31b8769a838df03348e01462b564e08849955efb968d1f41342f02fd627de0,
0x12f1bd9058590ca45a76e19b5891f5bfdc95d653394adb4f32090c60505de408,
0xaac3c820280c7658321df7aaf69274032fccd21be96174582a8c0c9de580068,
0x7c216183f03a4b7c77070c68b3790b31b5fa6d1df5ae42437b6a2283d5b8891,
0xda9d210a43aae4d13625782341ece1d0221bd6ee0dc4a639b7f13a6daa3c93f,
0xc0d8ee0a08021baca7a5799ed7b03734e4b9bd35430279d3f7b2ed473c48c6e
],
[
0x255a493aa4becd9d137eb76941c4120784c1233f6c5fdf5d65c0832af543e415,
0x19a05dc5bdf1243b57474519b375ba67bd83e122b095e4272c14f9646e733666,
0xdd31347136b2eba27f0528eae1c25a710c3707bde9dff3d76ecbe33f188bb02,
0x248cdf26597e0746d01d8b7ab0e9f88aa452d90eeb039dbaf586563945972fae,
0x25718cec512fa137f8a5851510caee0dd2c000af55af09dee767e2084796a71b,
0x23688bbb9cf13bb7bb972d0d18d0e05c51bff96ba5314bef0af2d912dc5e8d1d,
0x1ee8c54669e6f0ab1fb6a54c809d1fad213e8ffb7a7b40387ef594b7cf50f4f5,
0x282e578ad2799ca36191b37835889bca6e2e8bdf7e4412628bed5e39885d688e,
0x831616989168d514c0fa151fc3874b8cedcf88d27185e7e037cbe93391022e7,
0xbc5380f3490175b28f01eb5cea3914924df2b1f745d33a9e39ab872b19c4fb5
],
[
0x120f44670301b1435249294d9833d59e01682af4c8658719727678fd9ab7ef2e,
0x2a25bac660d90d85f22fe81abdc80c403a86e75d4f1434ba2eda3184dc5f2833,
0x2d19334d3eb5a9781f3b8105b0b1131ee95d4012e7faacf71864762b6fcc7011,
0x267b655f26896341492acd89edc7ae96dbcc24161d1e73ac652ea55d61efc3e3,
0x1d9c8ad973feacddad16da2be2ed7eca235b3bda01521da956f1c8a7d65ea58c,
0x15b9ffc66af5ac2aafbf2dcb199a57bbd334c9f971d903d7da7fd65e920cc9bc,
0x25814a817412e861b4318985ff3cb706db6e56dece08c2c6dc20584ed6fa6c7a,
0x4190e2e1cf613602ba331d0185b43c960ff5c57bc2f86f5c8bcd84b95c789a4,
0xe3999f52ed0ec7f486ff150acc84c266aeee72529234a010988f95a1b5885fd,
0x1fcfdb43cbd7992f0088a9a85c95e4621873666105510f25ae576bc08d7f2084
]
]".
(** constants.go:5066-5212 *)
Definition txtP_11 : string := "
[
[
0x26dba58ade8cda188f49e52fce7167b8f219dbd924d7786b0f98fb799fefa2e,
0x254a28279a58c838f7392034aa21d51ae44e1449433d90824b817e44b90cd22b,
0x281d2ccd521bc060d152223d46196f27b048f33ce6ffbbbb0884f3d5c64a6061,
0x10b388ce0c7860c8a70c4e903e61b3bf97b87e324c9150ce576aade8b2d06a1d,
0x3ed1d46b39ed65512e3e4c8d53cc1d2cf110cc65e1d65b37f1e5e785a6fe6e0,
0xbbac4700573f9573a123ac6a2735b63c48df92a7c91cfd1e88186a061a102d6,
0x4083e23f948783c32f671cad0395794a2cfa8aa1c1cb6a0c0105590904b2593,
0x1fa80347e1bb24e08599758c895a5a13fbc63df14dd9063f5ee23e5cac163b61,
0x1e465c7a4b123984937605aa07cb8cb830591e22e25b4d94d2efef2f25c17f3e,
0x125febe3a720ed956f1fdf75648260e56e67d32d0e785788d1cf97ef61f6ff69,
0xa3e7d3671a213b3184ac44ea74e12085cf5380c688ad23e8300e69333c123a7
],
[
0x11a131a3778c3774233bc54096419d463d3abbae18322a7e77a511881665f93,
0x11f3eefe7629e655ea90af7061b775bdffbf26dfcb0f67a5578774e4b237376d,
0x11f896a08f039c3fe481a03e0b8c880edbf71b783d169f4bff14bed5e1b5f15,
0x127270ce679a10a9b93645264ed270d96f109e3f65a437240d629e59eff1b2cd,
0xe81abedbcf77d0706b6a4a7438b5a9c42257b1233f0426225c8d410de5806f5,
0x1bd40e4b13c0eb7bac78d2650586a59f28b7ee26be01fa2a677e734078bdc210,
0x22202ee3e2df678269ac3833b87fd279d1d045fc42eb3ae75107188ad0e39bc5,
0x196301b7681fd2882ee086f61a83db475a030017f92f72dcf3ebeaedbc571520,
0xcb517d9337709a54dd958c64afc6c8ad84fca2f59fe3098f74a7537debe0d2e,
0xd9be42ce8bb76bd249d36ba2d8c5a70b52d20c9c8686b7cfe346d5c72bdc15a,
0x2240e2f64b6f5bacdb2d6aa0b444887a91d1ce0eb1bbcbdd58ea71499b7a85d5
],
[
0x2a18ab4dc4777e13cb8358c1c423153570d1cb909544243abdacd4547c8ec3aa,
0x1f19f9b9169b49713bfbe59154cd93aac19d03b4668733473fefac6eceaf9a63,
0x1e6425bea9db8ee466777ec75d3103cd11ad6ed24283a0b188b5aade7d496cd4,
0x22e2d64bc44841b96bb9286970439150d70c55f8d65fa79f1a4ab34befdf3c15,
0x22ea712a97059dfd8af604c752e478b8d883333e6749b2ace5385f0ba8697f67,
0xc19fc53d6d946af3d7fb79d8f22c46df2e1b0d0f2cfc983345db3287c44853e,
0x177800e892cde6dcf66dcb1c337b6f7f6f6cdb54dbe7e2e2776abbfda1fc67af,
0x133f706a099e95021e46b79e7f0fffdb210d87a4db1d129bd6fa5f62113cee23,
0x2c540ac453bc95fb61ad879a56126d5fec7ed9300d545938bcd80c2feee7a3e7,
0x2575061c9a069654a195fe41554ac0f4080dc8f7e808d676f3f33c615978d593,
0x283d7487aa3b5d0ede9c741fe754882776708f9bf68c745abdd38250ce70c288
],
[
0x16ebd782cbcf6d63c38b87b27db2a4a5af5847a9a60889c4cf6aa318d6866b1e,
0x15b3fe328216827e93598e15425979e9dc4d9b9ab421f25aee3e49bc6067d6bc,
0x11cb96a094be409eca05bc42f6d8ad0f6cf09cef2b286fe5945d587cc36862ea,
0x1e5c6cea55983c991761cf70ca77fc17c3789a8023d2752554b49d0b8fd1be7f,
0x257d458a2883c760b295e5b2789e6a942b8d50fa6fd3eb093a96ab81a9aa693d,
0x4603c35c98c1e379b235724bb309885e9b56284a6cdb1cd0d3953270109bed7,
0x1b2957f0c085f578b4a1b58a21143c551e5451ec46b9fbf6ffdd0cf6e586a00a,
0x17bbaa8b0ea832469bf933ec6ee5941a1bf97f0b7b1f6b0ce3f708d43795365,
0xca0c774b1bd1c2b00fe8f6698cb08022e4a3fcecf13d79953485c905b76f8a7,
0x1b0265724a00dfdba001c87dcd71e5c04736a61821b19f30e02a4b53eb59a12c,
0x29ddc736b1d7fdce1bf6a2f684702703e857b3be81599e485932a1c03f4fa16d
],
[
0x2b7ed47fac275d34f842f09b01ef9421014de040c26a591595b227ba7bc6fb2,
0x15a1af15f1f7a77a5e6e760470e7b7cc4da48f3fd35b1b01f019384381e37135,
0x15810baa26cba809c29275debafe2859cf2350199af232bf920496c5315947a1,
0xa1c89983188b5230102c213ce35a9fa49743c5490356fa305a8578c716f7202,
0x2a9243c6a61b2b7464f22e1603009e6b6f7946f31cb71cfd4d291601458ec39e,
0x14b216d879b61949c8bb2ff6d43bc7fc3c634a90b766f2276b0a5c6b09938cb2,
0x2b2b79db9b5bdc6a1844c4e5c7f33806d44ad8644fa0117f5bbfd7183754bafc,
0x20f56843ab66f86615274f77030d662e1f6cec212015e14896139ff6d28116d5,
0xf2a31d4612576ccc0cb003c57ad2db723008007b066054d114a9ae32d8e604e,
0x1a265ab962a3796d2cb4ee2980ff3bcfa03e8d6738d59c8cfb899cb771f9a61f,
0x5f7ca424f02338e81927a8928c0f02fc78eb1d1a08c3bfb8965cc7b43d8e056
],
[
0xc5e49e319fb9535073f07f9e055accaf3e3f24a35dcb46cab67dfc648efaf30,
0x1d22b55a0b71329ee03adbd79c0a1e7d32efc4d765e6e581ecb349e2940f394b,
0x825a6da8cf0213b181fba494995ef1fedf1d867f8c777ddb93d10b64f1f3bac,
0x189642d90074b6ef89e102eefefd69d4d69e106cc6d77281b971315feca3f6c4,
0x1976bffe10562085862cc586a3cbff8d260055e1ca382a74332328c0eacecaf6,
0x25195d63f3bc30c2896cafcbcca1f5b73ef4b74929359594e4421c7c9a1c8f8d,
0x1f523a01526f1b783c2e3760a4e7e9ccf8ade4e32b56002d15baee4eb794465a,
0x17cb6777e65329e7c510142a85cf3781ba33de3ceb98a4ba021d783d212e7492,
0x1308c2b9ba44163ab7190c4c151c7f44f2e19eb186dc82a2443446972d667ec2,
0x3006fd98ea0d9db2b33144f885e201534edcf4c3ba6e96d8a22db2bcfe8ced48,
0x14f241ecdcca69b025108efd0fbf00ed34448e7bd804d5e85a835619791468a4
],
[
0x161e4ae5b2d24cd638ba5c32bc2317bf90d404e37e003f1055d9a96e406d30d,
0x2b04ed9f42228f06802c0b537dd014217f3c444670a0c6f88b3b5ce001b0197b,
0xda48eb83004661d01df489e8156b75d9b661c61a9ee1329fad03ef74521def7,
0x1ba1cb5df0f9b236e9f7c4f637dd1e70784a2b07f8e062088b72c3a392d44b2d,
0x2c22be8e5b7f7c91490c46c27a09e91872e361c1e6628793b9674569ab3c0b1f,
0x83511f996c9f415dbe56786f78ec97fd8c84f5d4ffbda454b3c4d5901ec92a6,
0xc3e13ba070756735522097a41a9138f5a44cb5856648daf70bca100d2346b1a,
0xb14339306b1b2e3114e50b0607215d3f92ba684690d78d2a6ee417a73933c65,
0x25c2045be7d9a915562c78bc1ea2d954155a0289f900c757b7138596edd9db6b,
0x1b909b20dd52d51184b58d123962b7fb22cbe54881117270d279402c4056dc39,
0x1afef8497500f3d89345974c67a21f1e18fa930f7d78a1ca691bde258c5e2c7e
],
[
0x223c7fc6d24fc53d1b428edb8f1c52d20ceec592187d2c7a6b0b147b6292b81e,
0x8bd608629b132b0d741a305ba0002b9ec1470499f5c0ae88e26f269ef00320f,
0x238b46140eeecb9a32c7289626b692dce13cd51bc3812f1b0d866945c0e08e41,
0xa5ca2631a8379a163fd40936e6913afa60c1850b9e04b622f2b6e109d179ecf,
0x1656737ceb63a2d43d462ffd902804d11283820356001961f1239a1e7cd23108,
0x168df74339cc5c612553d91ce34b44f60123aa40e8486e3177cef84844529bfe,
0x1d1cea63939b21940f784f77c0f79ed523beb6df5432911930878b59f92c7f63,
0xa2768ee0edf0b7e5e69a734e4de8129136b926e5ad1891e6cf57a5c39a14da6,
0x22c57e5689822b5d931e748dec46c5e64c04067f579d96b89b608ab5eb5a1e38,
0x1d4ee90cc3cedbb9973609382c57bbb1b7629fc5398ba62e2f8f7a9c55496ca6,
0xf9c70d6ee5ba237f04597a71278dba03151a3efcc594cfe61ddf16b5cf1722c
],
[
0x1ae060e39b338d09845e2e9ebeb70bfb74cd4af926217f5732be2b6cb7fe72a6,
0x81e512179c27b63294fdc958ac35b91ca61cb3fcdbe4e661ce465eb3b060adb,
0x64bd952087ea3f724ecaab7ab891c7164148247b3d9534508559f290ab2c455,
0xf48a6aba18109eb41509d160d2b6e2bb75b73f2d360b142e2253e99285a613d,
0x2144765053902fbc1577578eccf3fc1990cffbc464b8d5955e387653e427eca0,
0x149178f36e2a8348229d4e5f829a53620864b7f8c3829adb1ce2f4f8f6198a95,
0x9e651e10ec1fe98ba2bd23aa05696c4bc5acd233717b7069069a206301f7e16,
0x2f995fb2fe9a457e970030416b7811a93b31b3f2ed7c7300034cf958575b3ef,
0x98eccc1107806d905139f5aad87c4dfe9ff0d1eecc1de30e8c6a4cea8c51dcf,
0x1720f40d61fac0f66408099bb1e34e3a48b29ad05b8910a7bc257e01de20dbe5,
0x18fce50e6f51644e0968c44adeda32e68bc24c25e81ec37ce5e8771383cb76e6
],
[
0x46191ab41e93929ea51f190fd4e773ac8d5083328d4b2f04828dca3e69098c3,
0x662f21223a41d37668404a75b278b868ab602e313e8c423798b47c47f1f56ab,
0xebaf002ad31782757a58dca1b295b2e0ec0ff3115a8c931ebf74fddcfb734cd,
0x1e1567bb8636626357515a40b0d5ebeb351422e19acc9bb5b7edfda91649841c,
0xfdceb3ae2d8a55f07822d7b92026ef83ee8bc326e3a8b35225d587bdde25205,
0x130e0c983de0ad6d15d8770698e39fa4569f38848ee05757951cfefa1f338fd,
0x2f7be21619fd5f7c05e31d90607acc55e36fcb5b6c55f970170e660f2d818fed,
0x5338e9847d4e29692f22f938875dcc5610464d7393c6d87dd799bb3bbf810da,
0xdc0a5c9bf0d5b38785df58fb22ede06709eac85f230639056bbf1333b9a2d21,
0x10ce79d030bc12a43f0b6fff0d884c15c263113b3a6ce3b24318f0a60164f6a7,
0x232926077aaf9a6e42e885290c6ad736f29cedc9b0ed5c5a0530e405d57756b3
],
[
0x14ba1b5383e3733c63d00c32c2bbffd8e54507ed33bf7544c86388191eca3e40,
0xdeb781e30eced913c20323aa3f86be585d4cce7f556abd2c2a0815bde87b775,
0xa877d868ac293ccec0f559d48e3dced60c81fef80ddffc8f70905664b3bc0f,
0x1d635d1267a513c78be7288e584254f53012b3f7955147ec7153532760c6c9d5,
0x120a95649ccf899fc3a8048ec4adb59a84d3ff5c292328f6cf32ee0c14d8227a,
0xbcf6e6daea072a539fa1030a61bd0c6f425e9982286ee468ae2ab7bf1b8d114,
0x1c4a6464c867d43eb5fdce8a731867e1b9730ab208fbe77bc9ca7ca010a74192,
0x562e63099a7630323f701d2fa312c654a891e682a7e0925429c0321f6155621,
0x1bb2aca445944760eb02e57360e6d3fae93056dc357ff0dd8882d08983be3325,
0x210f17a9d928eb4f42cc8dbf8d6a7865ab53bd038180c9a1c9a506a2dbb0602a,
0x277425a5970de392ade13f6ee3752600050830d3bbea3566438924ad5159df4a
]
]".
(** constants.go:5213-5384 *)
Definition txtP_12 : string := "
[
[
0x2cb13179d6e8a4ad1b9fec37376253cf64386ad905e240575fca86539b272dc6,
0xc894a150b70154ed3c77c170df947769ac6fd8f4170d341613e7adaefc605c1,
0xf784c25d3497fb7f058d93af7ae1a182bea00ebc2806c19377ea19a77db346a,
0x1a4f48dbda22089500b402545867e341b6b6f14bcedd66ab59a1f1482e4f2d8c,
0xf61b0bc7dc5911ba7d353e201a1f480cff116ab06d9e735e01889b688078347,
0x15f5f8ed095948c58f2cb630b9b892b1289429c3c6169f26d4501cb4b24e7d72,
0x2644c801ffbcdb796abf1036e3a240514c45708f0bb0616dc9f5475ab7ddf80c,
0x15580d2d80baf18dd310bbce40e0447c78518aeabd02fc3d66bd0f573c1b7b4b,
0x2103a7704b61ecef423c74fc864f57077ae9e68fedf93c4c24b3191c05552e8e,
0x254310df353b2d1c72076f34db3ad823aa35b7fcea7124714bd5243d90c788af,
0x23c2a54a64588d3672e1e11e0449fca37349013eb30472982df8935a727808d7,
0xe25546d7af425b5954185a669c63c9fa25d3d269e036e2770451d2cbaeb887c
],
[
0xfd547840f3a30a533a994d1fdb3f60ae5073f4484f34be951ee16a276fdeb9a,
0x39f5e3ba736458d66a7276a3f7fc143f4d2e10cce779a0288fa042477fa8111,
0x2834c6a4b3a7068b2959204bd9df5f9eb21582db300ac6cc9bc06188814e185,
0x365a1836d0c970acea6a65b34b4018ffbfd2334bfc29ea050300fbca592da7b,
0x7b2fe7cb2612a4b8ce45aadb192514490ad985b31686b75cb895938a99c35e9,
0x4c72c3e92bcf3c9450146921952051dd7b932e045c56d2b8d1225c557a02fa4,
0x18d459655484dea4af5de8922eb66fae69bf0b742ae678e6ac5ef937fd23f145,
0x28d575bf09788e6c9f404c4f2a4794c51393c9fd263cebc2aab4f575a88c1ddf,
0x15a78c5f1d6e0176ed4e931e25aa42576e7d172bc263bb5b22fbe2a1dd096b76,
0x253af96dc191b1ddcc7da399cf751f0531e2db5cfbacce3efccf23e9aee0635d,
0xbd6477a4e98ed1b6a052a7fe6a3d111fc2478b3817bd7c2dad8b1a813dd9445,
0x1c371f42917639fd59992e6dedb5a144b079a25f242578b21baa3fd6fe98b51a
],
[
0x5019671bda026670c7ffa9081795105963f56ce327fcf78451fba2bdb3ac1c6,
0x1c9807d9b8968d8f620640d590f151e0914406af2136f902521b8f4da19cdf64,
0x10cbecac3303667992c537c54deaec58a34528a2fe041591a98e64a8d6da5588,
0x1bc32304ad49812a051886f8904e1af0a76149223fe72e96523937f339a5d9a,
0x15dc91d6fb987bbdca99c78dd90a57b386e9b9ff7e4a4faf70d5ae18f431edce,
0x22b26a76db2dafefccea7be76f0e139a0c568e92a447ad288257ef310794df28,
0x1c76650a0527fe929be54a7e8a47efc654b515547f9cdcd58c146a0bd11872f6,
0x23d3b9deecba2482b107832457fbbe5ff670a61069cdc34a6470d2293471231d,
0x2b9a6b170ff9ce22246aa0b5091a7f33ac5a1b39904b61f0a7360c435feaa593,
0x316258271c5c2be65d5e41b0bf6f9917c8c60944d1be7f60891236cde4c2676,
0x1c67cb4dc98d5f02eb96d20f1134177396cea0f4fe4c04f856b0e2dad8e1b56,
0x25a8f4490a5df4e1eb13e2e146e0deb4de3d633d11bc4a540c5a6a21934b94c9
],
[
0x2952c18c15558f29b2ae77fc39e51a395f173a9097db404db765ab02906b27dc,
0x1e7fcf514768abb1800ff4f4884ff5bb6af1ee7581b96e2984c2b2c4033379cd,
0x21828d603ee0c7651c0a3bf6b18217e1fe33f283bfeaa1fa9ef9eea3b2c32fba,
0xde712fca9d7df5e0f67d3eb731a53dfc7d1a7cbdcc34411f6138d6de60fa369,
0xc58a3374648de30ed82a9ee0f4294d493710fe813edfa46b09aaf44b3ce6d86,
0x14be55982212ae54cb8f0ce42a162a7ecb440a4c0c4d73189528e4b12d34e5c8,
0x9da7079e3ff632329ed76acc28bcd293d69f9298fa25b9d5231f9611ece2c22,
0x2d865f77a39255aea1b29c483eb4a3acbe7fdd909cf17d91a0100143979a18bc,
0x2a39a308231582d0a1d003b5244fbb85588de1df3ac866dbc2fee6d1d8248c0f,
0x474c582c59ef66cb29b984f6e4bd97bfeb5a41c6485aca67dc0555ed1eea61a,
0x65cc505a691aefd234e572640f6c731993aadfdb529a9aba4bf6377ae28b69,
0x2aaef152c413b4ef991bc228242822e2a6377aaeadc7ac22e502def3d839f2d0
],
[
0x2353a60af6bd61e5eac2c9a4263d451fad07380654d4792378daf752e5cc33fa,
0x28d0997942c3b3b0a4ae3b17ba382c8fa4e1809be0ec701d01501f142aa401f3,
0xecf00f71b1814ced4f6525c4765846440aa3d39e7ba0e4e4610b70b5a38209b,
0x1258d5a4d495bd4be6c704992ddc3e89f7ae5c6cbd7430014491fd234be89fc6,
0x30513cdc3149663999036b87af10c4a183f71722572b4d958cfea9e3dca618c4,
0xc658aba90de155384cd4d63e285ac2d004cd95a2e95da1540ef7f1237d851af,
0x13bf5098cc05b1035e2f22bd47ab4041d8adbeb53c40aba04a75fc5d2435df46,
0x2339c682b7084d04d3c9b6072b20b63b12003e5c52043c6336ba222397269a5a,
0x2cd36c4bd8257cf74834663fcc1e38be2c3fed64f7b568e1f0eb0c269b0e14ff,
0x37b5beeecf060cb73d6e08ebb984eb5d9075b31b128fa3e5234e969036ab5c0,
0x118fc51eea37540b35bc2ad77d91af14dacc152f86db157ff4c48db58e325225,
0x29efcd78bf5b6b7c9811b6e838f5563b349606a1959751d63d28fa4c1124b5bd
],
[
0xed6a3bd48174e370b4f264b37488b03a5e3f4c0f61cf32d3157ad3e3b86f6bd,
0x287cd855b94877a396d39c336dacdb13452eff5917a877edce1412b7ab24ebb8,
0x4f06b7fdcc319605d038881cb47f61748f1e9f14d47dcf824abfad47a73bbca,
0x4eef0886e398163b9f0009c8204cf2d9b0a4a30fb019b3cc46cca6ab3ffe666,
0x2fb04567ad27a42a4ca2ea90a0f27660e1e10acefe62de96607aa26583695932,
0x1f1c7c6bbbdecb7ad8a2c8a91b983b075f4998fc620c36e28e2b59077ab57704,
0x78a3fd180d76eea922e4237fd65bb83ed4561b268751a20ec97d3e0d7460d27,
0x11ce8d6554294777e161cfd91ca86ac2fcf71bea4228f8aea857187d579b606d,
0x17607b33a1043bcf034c42feab79507a82488808f988fd0e13f2e2982ce55e0a,
0x2c90418c775ce44e34d9de72d06a7c2c9cb072518bda77828b1e82fd1d19525f,
0x1cfcedb53846d090e72523914eb33d6d2781bb18ff1a7c885eac1326e93f7a46,
0x2a4d8464358084800c89f6fbb98bf69d589164f9a648f48d3a42aac8c5cbf177
],
[
0x21103a7aa20c8d15501be8c23504c6a912c6100c5d88085cc2e42a52302f4483,
0xc783dba69038bd1673bc3bed51afbf51ecde783af95067c14de12f49e49570f,
0x1cf80bf06f3525aa85416d6cacd0e8251bf1b3a771be49253b60ca83f49b2369,
0x1b6e663aa128709d83c7e5a86284927920043926cf55678bacd8ee0322178495,
0x6146f62b14c25c15ac08d1756f2302395505138a4ee1184000a38f4c7f53905,
0x1c5eea7863fca5bdfb2f4a3dad7e2a16572998329ab695adecd136fba4f4063d,
0x197b13f8af70f642e878063aec6e21ba8978ef2322f2d64bb512ebfc7bc2c7c2,
0xdfce2c65e220994dd2deaaef6e04537b35ee47eb92cdbbd7c61cc6189ad3f5e,
0xf4b71f3763666a3dfce7517b6746ac033b2392ef742470ff7365ee5976bcfcc,
0x6fa7b6308e448573f3fdd11a2ae8e44d33c3d3cf0d9ff8601df20c55c6aafa4,
0x2390d163c2c0b5d461be5ae1f2dcf4c38c2aa514cb22b4b5e104dbb6889f8a9b,
0x21c9120f90988cffd032feb1aac143901de9cf42ea3cbe83015e9275cb67907d
],
[
0x2fb232573e85d68c536d100c3a6ea9172884451e677b0d1cd0fb4dc4c27536b7,
0x266913da539f40df5123e01fb748b241795f1aeedaf1f7ae3cef0e5728d23aaf,
0x2f6910e50cc8a14ddd99b667c6255bf66dfb3386e62bce0d74cbb47419c31572,
0x24fe05893f5e7aabb44d705fe83fb319d29b511eba00b2705561c6bb0afd7b37,
0x1ef5275b46a65f69edccb39f50fb90cc578ce4e519d54c8e61c31e6ae0710a45,
0x137569526eda65a31fefc352a005bd0b10fff52cc5692edcbf46cc5f03538ea0,
0x8552774a893c4dc375ee4efca4dbb742277f07d8980c54581b5d4d0dc1b7688,
0x2d9b07507a9df2a587056f988c7caa44693a118daae6660e160561d276c83482,
0x2c90b4ad79e2316e7986b75730418fe5d2b1f252e77817385d78ebfa34710afd,
0x275fbe17c666f61f6cf5484db2e52083e856c718ff2b8f4d4e17f130d2989e9d,
0x17f57c813764e728dd240398690408ce71dc8adf83e53f5257ac34b643a3ec15,
0x2700ff01dce092807c3f143418c11a2f9db6bee6f478edcf7145d69af66e13ef
],
[
0x302a085be040ff9a709ad0c73238b0d1e11e1d17409abaa34fc45de29b541535,
0xf259a3b7e18add912cdcd8674b0f8fa910fdbbfad967bd816b33c778feda3b8,
0x1e43f0a896764c42eb93be791fe26928f91c7bdd278b7c810a2f588268314b95,
0x268094abd638ee0145279900f8755e55e1adeaf2dc222f402d1f08ea4953abb2,
0x2e1bfa1a1aea7b44c84b866d9e7445e4acac75f82e0ea8ab03326214c84faa0f,
0x2e1e2e2f2065961056bb63f04c175c1682eff3bd9073fd7fd76e7df0e8f12d47,
0x3a2adbca7945b9a6367799a20c37944597333320cd815d054a5794f68460c83,
0x2ba338308820d232cdd019154fc49774b0c884c7f82b9aebce6ea211db294991,
0xcfcb2e3744279efac866e0228c1b3464a4048f4910d17042ba1a6b8cd12c8e8,
0x24cb3811355775bf9bbe6431305ffeac61c7de7c629d9a5ef84d960cccb940df,
0x257540e571a74fbe3ec524ff58f183ee0560d506a8d10973d77e54c9d9061161,
0x2652e1e037bffec0d7be1355de11170b7f916d148a7c3ee3ba8fa44817d48fea
],
[
0x683e640e6154ef73c3cd6b1d0f0fd86ebf7e292e63fa84cf0a883c2f1faa8ba,
0x10017188ff4a2e0e9b05536c8d07e27d0f194cf0689d834af2be2b93ecf20ab,
0x2afd3c4028b2ada5d194c593bb5e4e2710cc5c32edcd5865b59d4c7ec037e251,
0xebfe1c74eb49cc73b0f6c3f32f096c2fa6288b0a04823e290cd02dfb5e5dbc1,
0x2be96b6dc6b5dc0f78ebf844a52f6c1d50562238dbe7b95c47a2ba4ebc0e1c17,
0x2eeb27f0c5a205ead76c92eed0ac8a112c171711b1d12d1e066fe3527174f6bb,
0x131560b779c80ad8cdd22a9c3ba80290c76de761b1dc6e788f7f9493f84d413f,
0x7039d5dc74b4dd2f6a0701a3179b502b212c3a4503557e6e8af0193f07a5669,
0x16b1fa736396549a38076cdd9df36cc3385540ac1d7e42c79aa0c9cefc66a65f,
0xf5008caa5bdfda3401446482b3ce891ca497cfac4a24ca2571a02a8ecd6e78b,
0x427946475c0460b0fff4ad995eb4a9c608e260007589d7195b5cfb892bae4f5,
0xad2c3c083a08091a9566bf29eb7506952d2ed27eda2fc0f51894b5d2e28aedc
],
[
0x1f09f3fb07f7f6476fac98946b7375095e014b28f23a07ac9fc7077144ac3979,
0x2bb007eb9685bfa373e688be53f5d6dafd6f87413c9805d20c579933c6ab1124,
0x2b22adee2ededd40c3dcc8e1b15d38081edf590a9a7ec2eb630cbfc5292f238a,
0x6ac8237c50116ad33685d84005ae724cc52e0ff4ade0d47b194f7923231d67f,
0x217cef9e11c01178da427e2b9f7fcbe4c1f1525d76d3ba7c8850191545e58295,
0x46e7d8895837a4a02894e5d6f3ea8d51adb0ad4897434ab0d0e8079253f2fcc,
0x1f478986f1820203e99247b23f9ae06526a085c84cd31655f82c17037b1de5ff,
0x3a1fee4f5ef14a50af278a0b62247a6669570858ac9b2074df28b0a4e9303ab,
0x188a23c2b448e79af34b9b4866c954e698a6163ab9326f25f2dd746cd1347d35,
0x1cb09fac676323645d322c13c676eb4645446638d83fadcb37c4f1788acc1252,
0x263d998161f060aee0e6bfb95f1974efe466f739715e92c278128c7f18ad5e7f,
0x2488b89af9d856ebc2f9053be37e13f9e1e546146198b764e0e0ed784115d94a
],
[
0x598c38d2e2c78dfe4907c74e82325cb191d52608955b583e5826ebebd1857b5,
0x27fe7a3879727f44da5d035c1ee30fd12b4a6d37a488981b4903d9340b67b7dc,
0x11033939341c415cf31321211e351744c0831403f53a65832694b35adfea49cb,
0xf47bcf189e8e4ba1b486290d0c9ee89ead181850d2ff29b97bca91518d8c2f3,
0x53090370cc10eadfa09d586810cd0da5ed707080999f1211f0094108e1b3d57,
0x2e2c801404eebd30297f3ec0ddf5e0dd9c1e0aab055268e647c3fd4712dfc84,
0x203f12fe19f06faeaa77bc8baf4983c763081a7af43dc5e7bb83f789eaeee5b9,
0x18837bc92a8af3d37214cb2724b4c8b904e641660e5a48f79ae4a49a7bc37ff9,
0x9f0706eab57f151b23e4b968ba0b6bbd4fc82700acd601333382757a15de2ed,
0x1e7d6dc15eb4669f914899901e7deaa91d102a4e4d569b40b9a11d1241167ef1,
0xbc8d092c5d38d087f9f34faaecec3a55ee916469ff5e23e619b73468ee8eb57,
0x2bfb96f78ef7fe047373d118c0aaa0140ff43e5dcabda257cde23856a654b6fb
]
]".
(** constants.go:5385-5583 *)
Definition txtP_13 : string := "
[
[
0xd064dee824928d39f2a8be7d2fa583223c33995784d228839adde2559592592,
0x5da987f17a176320a821339189d24ff783be07f5a6adba84ea72fa0d7faa9a1,
0x142b410fdf81d2489b47702708422b35a9c6c3580144e7f3e94b971bf079585e,
0xb98437a312150d8171b81b1891f3cfc75b9d14473319a77c7043d8d2ec320bf,
0x2f88cac82b777c1c7b751129e0bc1d038481129c546e80007a6a6b73c52c7f4,
0x2b37af1db29d45113ebe8892bd41ba43e82d045eeefca95390f4a7f816639416,
0xe0fcfee5bd6119ea196992bc58dfcffba632cb20e07d9bd7f1f4c0738edf767,
0x1f801f49cc72b3cb1ad6d83474b3e98cc9ab427ac9d1807de151ff591c2d98f9,
0x5aba81d049688ec509fbf12aa240297e0a4cfbeb91c87e4d1d72bac8acb33ae,
0x1efaed0a28bad9712571c0f7200ed332ec1342c08a9270774ed84817ffe8943d,
0x2765f7a0abe74654c9182787a7d252f964c3e38c946a1f459579923b061b206f,
0x540383aee2f7779742ca518ed4d4d752980f2b5dff48339c128acb79daf88e1,
0x198d160f1f80e78fd1e93c5244d636d72185966e93e62dcd0fa8cad1b772f781
],
[
0x2b2ff5f27531b6f3d6a85d75e3e08f3a2f0dac3680a6c26d55ecbf803ca80569,
0x20dcb39566362206d4b38ed042277d966f03092b6910f3a05e5b1c3071f4a070,
0x2e3c5d5b931ba49c99edded32e4f404eebef7eb08ca9668d82c912cb5d428585,
0x11c900f3b1c7732081074d0a58091de7f826a4f106a930899d3798c6b02d7735,
0x2cfc4c4f3575a5f8bf5f2ef6b518a47fac9fe853558d584ede340b5e32eff61c,
0x7ba6d2ece419d75b37c87da9b00fd277259b4232542eaac3d6c7d85c8677a21,
0x2ad1869717ab4c539dac1f950998c537d101504b008b46b47d239eed0702f8a9,
0x6b21b6e86693de4b43f26771aa347307be78fc9585a91fc28b6f0f802850576,
0x1e54ea10d6b7cf0607b5224797eafc3b651b492aa74c92ae9a70a692a1965e2,
0x23b47244bbd00be19b1c8046145626bac795b4ba22beb692810bdff4794ae97,
0x16ba1b0ff54dacc9d88f85fa6bb69988a0633a3998eff403bd55f352a195192c,
0x2fca163547569280e953a94133047f3f9281b220b0c6334645e432143edbaa4,
0x262cc29dc7439873e862e94b1948eaef1068da52d8bd493fe44a9e48b47b88de
],
[
0xb658849ce620bbeeff233b7d12258015ea9f87a5390f5614981eb6e4cb4a5fa,
0x2816fae6fcd39053c09df75bc62f75875e635472e790e295aaee0c8158961174,
0x5849562006496b3a32966a1a53d29f1c667a80e69e44993133184456ecc57a3,
0x23bdb40dc2a5072c7d0cde89e1baca83c53b963f4129487c1a68ffa36cfc46db,
0x2283767ef21ee3be90dac5aa35e2d5c39f7bdae014bd63b63039d19b042fb575,
0x1a2dc35b3c29c763895e67b7ca3ebb9c34484431cd2d1080544cee9d03194c13,
0xdf23b54c9ee2fd50b58ae1043cc7e0dc3a11f183ee0f815fe9a97caf186033,
0x160a65dbda0b6f118906dc50e0d5a8e64ce7765f4327700e11e753d7386e7392,
0x24b39cab2a81551d5d529ed57986b8ecded02a7650eedf67925eb9efad60dc20,
0x226f8e8bfff7dcdcd1980eed6f88a2566cd997d4f7bec484ef25bf8ee86eba7b,
0x2aaa2c1202b74f2dab3f58dbdc95eafd2ea49d5e3abb47f3b33cbd4ea13474c6,
0xfaa06fba9421c021c6133baf90169f65dcb46cc47ee532989d5ced54155f34f,
0x17af1f8b71c3656ec7d3262406399866d91470e4b912040132b923f891e63720
],
[
0x118132fbc1cd83f95167cb4473d54c6bd2c417e2782e5efea16e72d47b48b70f,
0x1df6a4c43bc5c69763183d36c26b6b37fbd5e4252de4b5c3c0da6b81d2bc00e9,
0x2fcd5953b4af9a49fd90b23229198d09fc8fc8ceafdbb53599b133d01023ef76,
0x24c66b7856c9a5d78819772b35eef0de88ae882c19af36039f785a48a75f450b,
0x1692394c144aece305a7f02749a63a355ed6fe024be532af2152a0d53d590a30,
0x2e0f2af806c4c37a9cee0b9d31be62616a7dc6eba5e51ed9854c1be1d9ebb9ed,
0xfda8fed741c4382c69bc3f63c48c052ef784b8f67ad573451a418f2f6401127,
0x1734a0338c0a652d147ea6c26feaa378580ac91d0c8801b3b06a4f50b580d01,
0x239102aa73485d2a291639612b53c10c8a729f09dbf45984e80688332199990d,
0x15c8103fc31eaee1fdcceaf57ff198cea6eeba5237969b036135084cd15e1b57,
0x1ce8ba9e5353bc50ec8a7cada1fb238a643d6d1c03449a5ad1b6826807821747,
0x13cc546736c859756b596bacedfd88344e4cfe16abcd44dfabf1234df19fb7e0,
0x1dcecb2dc57bd3cb8ed9aeae4fbae4f40e7ffc8dedb72e34c84a9318d9863678
],
[
0xb5944768d61c1b3562a5749f4f06c4dd085bb562b838d7e2ef14a21fdf524c0,
0x251e1806f1951c2a33eb6ae39afdf9be6b971da924ae9920246d98bc435d9c59,
0x2995212cf7dab0d9fe609ab9e441218c5181d91e3e2f6c5b6a07800c8698fede,
0x23f10d62357467c7e71eaccb73ec7cd5c44d69abfb91849559009504f81aa57f,
0xd435e4564d33704bb176ee01b59499df851abc0dd5bbd64b3ebdf9635ca39a5,
0xffb4165b1b9e112cd77c00ea81f751e9a2d46e3071e5bd3007fc3a987e842e,
0xc55394f0fbacf892378bbfcf44b8e9475af7e5d7e2373b65c205da9b1b8188d,
0x1563ed24f45a7e60b65a0379df8dc871aaab1b5cbdb24f9f675daeb6fa138423,
0x270dd42f73034ebbfbce9182a6e41fb80cdaa78c06605db3c342c0edcc22e577,
0x11293baf366c075e3cf66c9f14a4899e1d9807460f30af948e44c06d43d37653,
0xdbe92f1d5f635e182354a066756bc119c14060543e78a467507983a74f9707a,
0x22b8d93d76a89bc36f0b5d6a1ec3c6053510622713e2b833499ba773dcc0c217,
0x23b478d2e4e21e478ea7c859da3dfa7229f6a2fa20a2ef1f406d9fb0a7f62f28
],
[
0x2b04d6ffbaf7144012d92c5c6212803c0b5bcc0d7b1950b889d1fa6f3e56445a,
0xfdaef081ffa41b2a3c6f8f4c23a5980f85b3301bfc3c342c938199cf71aeb64,
0x33a135f38b760028fbd4b2270791912b0e3008c2007a89b30621086f994879d,
0x2e1eb1ea7a1684486cfcfcffff8c926be2670f226bd883d11591addbea75adda,
0x28bf473bec9d8842b84cdf474a435da4108204b09ca3512d6ef73c19d0be40b3,
0x2edb397ae478291b9f48edd50660fbc1b5d7d906947fdddc255ba787d02b0366,
0xfa157820a600d4a78390b8beac81aaf6e8d1607d7f4eab0afa5d7ee6abc605b,
0x283fa69d06b072eb8b27c7c655b71caec057124aa1669240971c1d04fa881c3a,
0xeaf5ba40262c5feb646c4f32ebe7cd2a1ae38a83c48a04e0c1d452730d63058,
0x2306577578a3acb6a7c070ef0649b6eb67c58224662895d470542fff984f5570,
0x2f204614994166d0a9fabf6bf5db5fc3daf0bc16645f0f202989de9df97c1161,
0x2a93e968eafe2ef56b6e5ef823e29d96b551221e994f08806f148c8d318e7920,
0x2f4f684d1f698b3aef34a939ddab2b80696f2246a13250f8978d597a6a20e202
],
[
0x29be2a42834ae32de3320fb0ee46b4c102a3d1ae44c5dce152fdeab5450c9c44,
0x2ec317d402fd363380a63c205dd966e0a9fdadd78b8b9485273b6902b17ed49,
0x1ac21ee4c3af5f8d60fb78d0c764adcfe0c20463b3d0abcd3b602409f2770743,
0x882e85d15875eca350c4e7c4e59a820e47a8381321dc5c7f8f78aa3e1aa68c5,
0x290075bb9d48ea0db89e805f26952bcdb6f96b1507580b45cf56e18c21871cb6,
0xdc29c413aa32c2199a2de5e9605e1129b1e681163b80f82cf846ec5f54377fd,
0x2dced935f82c932e7a2a837e2816cac70bf50da3aadafb7f8136bf973b0d3987,
0x104de5f8e59f98489ffa42926a8aa9701c422e4f13abe90507106f2a5a60f0eb,
0x23b7b05c996c963eaec7c5817eae6d0bfc78c01d9c5da84ef4acde5204c4997d,
0x177a7ae9bc58e64a1b3baa1975c6824cc81d32302740709b0c6fac0ed9fc1958,
0x1552bf00f696b1ec39debdba504f79ea16c9ac75458588eb8a879908c80c22c7,
0xbc4a8170c368a03c40fdb65123bcaacdec1f9ab057747d5a2562d28f4785ccf,
0x2593132f444b3731469755f9a76b92bb29f2e89e264ceb1e2881a4aeeec2751e
],
[
0x1946fe9de0a943d5a716eac08561cd91f9031fec82da9ab72883c7b218b11eb7,
0xb5cfc2a2895a6f9f5ce97bf05bcd5fac012d6737d93be00df14f91d0e6e8d44,
0x1176eb406c82709b00e6c8aeb7437aee20d0e14b34c91b6d4759d425cea472f1,
0x151f15179f562e6fb43c853c9030c7d95da9bbcc9350b40862350b4339f74320,
0x1d83dbd5511b6cd9e553e82ebce5a91dd9f423bc9e311a211d6509e37e3c8283,
0x62edb4cec259e007c26a95be576fc925088cd487260bcb67fe88dbba993160a,
0xa390e27ae606a3530759c877186ef25fda97764052ade30cb5533f0ae878927,
0x17a961c4c7f021105e4facce2011ba1f6f7e4c18c6522a8879b371bc53eec16f,
0xfba90a3180e89f49b981d7f2d369f14b354f586ca695d5be51d562bb24f01f,
0x1b17b06f9727550affa91416dca65e6940ae6266c426f46a5b2a72201c9bf48f,
0x24aab8dff690a59f7a16863d2987edff9d240c46885a5fe39ce1400c1c6638e5,
0x48ed2132edee472d9b39de6eddaa2ecd7c1259af7c64ea368e66882d3cecb15,
0x3ee389275c64f648e0ef79dd7ef8d7c4034d8b0ff91a834705ad383278f1f7d
],
[
0x1af3ca6240a55aba55df8e49835b92fa17e39ad5701ef70f8144109f894bf1d0,
0x2566dbba85110cc708700743aaa5c7061b174365a8efb5938b4bcd82ea79929a,
0x205197098d6814100ccf6c908eb3792b0294290afe47949c85b0cc054a60bed7,
0xcced1f9a364f77fe44b306c4539575f8b1ca45758c4fcbfee234e8dcd973ba6,
0x305e20ea1b93c0fc73307f4825e80471da211c98323f23b727919b63e42501e2,
0x1e473b357377aeb6c9eeca4adacf0ebbe72df720bb533055f056eb9f2c13d536,
0x56d703af2f1982a482cc560c2f4f2da32ef0356c73ce35f7b667b8f825b2451,
0x46beadefd1c7353469794eb81f574d38910f72d81431159d4c532eecc18d67,
0x2ad6ce3498864f0ae788665262f8b99756997eccbe50d70338ecd68dd1e92522,
0x8b39764e398e29ffe39a83c045a1218036653fe8071ecd3779cc6e79e643fe7,
0xffb07a9dd49578818cf9781beaf8940764dcd2f07aab4123f4c9f030513f622,
0x2e7b46afef5262f60443669d526b99983678236c8f5433cd130defb06a39023a,
0x13c717906e68279fd9e57e6419986ee2cfdf96b20d200e4adb31353b19a91470
],
[
0x81f58a91a4e0d100e0369fdd81a190035342fd0677ee1bf5215e47f8e58c2c3,
0xd94283e58978ce187d463c50a7277cd3c80e044e15729a6f8ec0422f2ef8b84,
0x440a6e12fefc1ebdb82b5e69c461e3e332fbd297474c18a65390fc8649a3d55,
0x12146efb02498c13aceac7fed685b0dd88fbefe8f5993c0cb21b0b4bb85b11b7,
0x64b0712fa159104820ac07e0d2723a3bbc1d1295ab39a108e2eee8230131f6a,
0x1e0f62f785734194e76cfced2e91600716eb46fa4d9235f28e47e366110af98d,
0x8204690216d1d2ef851dee5e4edd9fbfe66f098fb61c231a0e89bbbd9e9475e,
0x20bac589a995937086cb727fc2561ed052489eefb58cfcc260eefd58502b1ac6,
0x1f4bd25093fafea78a9db91966e6145c46472a4ed46af710826accac2034fe71,
0x278c85ceea23e4c040b66e41ad9cd09a7d0ac6d3457a6e596df14505f071de2e,
0x45ee69f0bcde13dcc97f5910d8228124b16945cbdf38db33cfd3933d2c15c97,
0x5ef0c0803ce631e81fcf86a7c270ded90e8127485d424abfcfa7c4a9da7d8f2,
0x12b584469f8cb8b5c200bd721bb2c299c5e63422d730a3baa52274093f9fc085
],
[
0x22a852af90680a8ca9688b71ed27c157d02b406bd6c7fd8121d7c7793ad2305d,
0x239a362ac4f07cd888facdc5e32f0b42e7ce6485e9697d14fb4089bb6074ead1,
0x101185b0a8c7d142bb221c50fc9840e9c5a0bf1110e9dc717b354f100b514422,
0x2719aa9c388ab97e084241110f428722c8f72de23a6ee33f7040c781fa5ae476,
0x18aacbd4af9ddb42418648314a53accac4af473cb54e3dad906a0210b98bcdf7,
0x28d0ac11170cf9ad662a2f31d00633af17b9f0e345889ce997829747120aef6,
0x1c76cca8e7372edc737fe1755f75986a465863a66539143a5f21f8ff9b0f8970,
0xafa7a7f02200447c0e943dd60c468ea6d1cd1e001505ce16ebbcc97297d6cd0,
0x28efb92a44b7e421bca73b274bc28bcf74f94c7212d72ab6913c1709386c5e3f,
0x1a03af000cdc46ccc12067c560bbda2a98119041bf9ad3ccd9053222fd2eb4c2,
0x2409f6c3cc378966ffae28eb4adef67f8c282d8a902db3ba471d9540c0039451,
0xad59025aa1e7d4a026d1f819695b3f7890b3d9631dd06f7da00abd0ecd94ab6,
0x7591d69aa28fbfb5b65dbb6f4420106f0b0906151307b976f6baeccffe2c488
],
[
0xb27ba82a0ffb98368981736ae927a227828985c00c3e5df8c1276b1001089a1,
0x2ceb1780957827f9d4fac39214a4e82e89a82a760a9fdd85393b285dedbd8114,
0x18259272125382f107a04abdc0d968efee527d2242e263015e121fc4b090b582,
0x10c97f58b9ca58426bd89a59173ce8493d2ea8d3c6cc827ece2453ef193bedae,
0xfdb0710ff8ec599e7ad5086a29d53a9d1834e1a4c71f0b6846849eb0dfc47bc,
0x2008c67e2365d2e73a882fe3ffe416e8e0edf4a3c490dbb05d6daf56b4da0546,
0x874dbfdc6d7035655981f935798b58b755c7a9d82876352cd26244518d67062,
0x29d294ae7d02f2371a16b483b2102e0055080956b53331aa171f50de5d9799cb,
0x2aa10edd36798bf46c3cb7bd749017867c029a54e0ead556e2f15cfeffb4d9dd,
0x2b457a5ddfc105f203eaeaaff9af5149e02c6cf80a9327ed502b29f4c3602704,
0x29ccc8e6be785237b8d99009dffe037979c7da79ab22fb062d6fc1f59d48a708,
0xd829ea3c10abe53f0153b4446f6e2a250dbd79f9ef7c45745572826549109e8,
0xcb3680ad25a34e351089474c8ae39b6091e553be4b67c2bd1fc7a62a04287e5
],
[
0x4b46526207edc70a0d23c8438bc49a365635552dee240661a2cdeef966f20f6,
0x1ce71edf5b935a231b0ea60402ba756a4bb45d65120cc0845f6c2ee2ba32e7ab,
0xea85373234c815ce2693a734fe28705dc6fd3fb29cacd0b9f4edb694c15672c,
0x10e60b02e5c0abb8dae47efa17b0582df94a3baebc52bcce8820f858341d7188,
0x67ac96b7ae162e5d0b43715f4c24b9031c082baa68ac7638a00f8594bc3b127,
0x293dc450b0e5c560a15853129e238b046a419ac6f0c8ec19a69bf8c409a73cab,
0x7a2dcd14fb017674965e82174a35decdaad75e42acf3d5ac1a1e235257d1fb9,
0x5cf8b0f380d29befa5eb75a0c032b7b7eafa895d98e0bc0e86f03ed066c9876,
0x2d00dde97b4150107fd9bd859c5832844e6be0d5a99cc6752d97585b560c4b2c,
0x6f2b210733fa0605a0cd753fb6ac80a0d893b2bef2d5453e5f6cfcbc6a14302,
0x1588e892f9f2d3c6a7dce89f132b3dbec142bf485e2142ae05db7fb5d7ce211d,
0x14c92dfaa3a1f830b20150093fa670dbef3c0c807f52321e5fcd28807179cca6,
0x1bb4555d8c5f8bbb268361d5e1c22f9555f7c9f4fabaa24355c963edc263af6a
]
]".
(** constants.go:5584-5811 *)
Definition txtP_14 : string := "
[
[
0xe30a774c353a2cbf244d3d014d1a0e5ff0bac5e242673ae33f1bb2030feff68,
0x2525da24e1d134d9e989838304af65260bc9e8f31225ca603420c6f22782a31,
0x138f42d30ae01982ed697be56da923021ca5ec09fd9fdeafecaf1b815a8eb44d,
0xb68eaed660cd2cafd2ac447e6b5f44a4acc0acc59379fa1e1d6d6c23e29fd18,
0x23a87eff7dac26756048b8a99cef16bbd4ed93f085177da15c763bfbdd413a72,
0x298b224b535d0d32e971977b9fc2b3f83df09ab550af80b838c2e1308a388aff,
0x21fd7ef66c4ff374e85b552f0c1162831af7f2e1feaa30e4d42c9ffe585e730,
0x2a75ec0f43bf0249456ef5cb1e58b4716e135e1033791b706c1198e370cf5912,
0x217005316ff983a988abb4150d5b89fd58f5e7ef95d275207afab9bc736dcf79,
0xd200fbac6500899253294ec3394f5fc2374ca3e3243c34cd97c5f8f31f78edb,
0x225829f1730cfeb97ccdb5b1df418bac0f761d57293a39d5ec293014c78f38cc,
0x17b09625ab3ab20b7be3da6740eac6450972d5297ef55ff4bee47857841685e1,
0xb98d9ccb5cd1979a0c45a9ff8f87be8f15ba1cb758c602775d2a5711dab8f70,
0x26c6a596dcfab11f05dda86122034b6f2046c51c0024c4c673dd93c63ecca6e8
],
[
0x12186bb22000ad84b6bf29179ade2d4e7e94ff07e51627e09580571061fa8ce8,
0x945c0594d96052f702d1c0c8d423cc5f054bca11e54a939531e5c6616696a8a,
0x1a8993400bafdba532b42fe60fa719ee2bb70744c9684c87431ad462b69f6234,
0x271684ec4ed2564694dd8fd7f7ce52f573c22c72e8268ecffdb3f3256cf94d86,
0x199d5f44df92c42cdedb75daae78948bd1b812ef63e72c6d01d77c9d513bc32,
0x1554c7a78e970212db02a0c7478c02343ddeaf350d52ad460966c2198475e5d5,
0x222ab7be52097210638f70d1bcf3ad6842230e0561e1ae556519ed6e44ab56a9,
0x391e74d9ce9444812f42cfbe156e7403ec00c10888b716132c819542982da3a,
0x145f48fde51a4c7f0469cca2a20bd5c5794c594c08ea063412b82e4c21fb67ac,
0x1c346dc47106b6a9c0e34f2b6a59aa07c0e23a7f0dcd72f98698b6bbe2440a9e,
0x1d881f9bc6c0a69ad8c4cf8ae0854f5e39d7f120543ee72fc776156a6dc41e25,
0x1d6405c7bbef29b6526df75b9b3a43749f55a7cd60c2956e61ce35446a14055e,
0xe1f6e07f1a7310ed0af6b08fba57b93adf17ac40ad5b334a7b5b8d2b21822b6,
0x1dc01119987d2a025898bddb1d79385b99960e97c100208b5e992d9dc74ee608
],
[
0x2399faa648aedf9024c6ac3ceafea248216e24a9e56caf5acd29ce2546a9f6b2,
0x14a0f9e89a7bd2f9e93a28113256f5909e18bd8f2d4c6a4b91fa764f5d6e9813,
0x223cf3744fa802eecb6e33bb5d345a4e2e494e2e0868296a075010d891596cf3,
0x1cae3329696575edb1c98df16a20e97a0dba9988601fe24a6ac327233edbd7ef,
0x2d2d2d79eedb473fc052705abd07b5d7d13aa9a52bfa0a34b29bccb2768ce812,
0x13d95f949c83e09efec7464df18f95b0f569fb43aacf2e2b2b0d1b8d6a4ad5e,
0xdb367b50c96c5ad714104e535fcde5cc2d98a7358dd85bd98cd4e7398985874,
0x24d565383969b188f2900ee27741e48500dfaab461965ccf6acc7290c5c07b38,
0x2c08d33aa07452ec8d30fed9ac5f8218885c18de68857395b7361d06d5d50c64,
0x2eb969d5960104432dbec4c924f829411bcd4eb2582508844fb46c57e4b971de,
0x1899d3ef6a66651b27035f47a0030d77085b988bfb2595392d46a09eca668e9,
0xdcd018b542eb51472ef63566573192f167b8a41b243d2f9cf7efe0427bdc769,
0x1e76abfe0e0c0907983d49bc07cd22392c9a9fba1cad773f87877d8514e4103,
0x270775b57362a96f142cf0560a3c1f28f8b8f84b1695cfa20b271217cb9460b8
],
[
0x3add29fe398ed2d44f233125ecd1509e3cede77e6be08b94af4fec87eb3e48e,
0x292e485c257794ef8e1fec5dacdd6ca69f168408249a6e203853615080cd2cd5,
0x22a26c25e3631f154c6447ba2e8543b1d0f8454bd027168e715f21c86d09d399,
0x2013efe5dd2c054f547d532fd6f38d63bf3cdc07c1b3beae0b830c536936dfc2,
0x10b99b04d7a8e09059e28c723db16cb75528957858c3f9988f0050d18a30e660,
0x17e35329c9aaa754c345d6eb317c368788b093ed1d2d136714ea1b2f793da580,
0x28ec7da8ea43b28add669ec05c0866c2498ffe99bfdfbec896bbd70d08720f64,
0x145115518f4ddc7a878c4a4c3a0cda353142b420cbfcaf2f2eb7d67c6817ed1b,
0x21c96a22d60f44c34f543b5086ab4fcdec036b280b9f5a64a3a2003a2a79e906,
0x2fe67a3792bfa46545ba3633c2d504d9735e7d03b58f9208f584a3ffb3f04a82,
0xc27c0b2f86856b2350007a8501222d7c7d89c02919d2a310032c4ede9da6d5b,
0x76eb0679a3bc5901abf1204e92462dd0049c8b80f0d0b110ea12ca6d9da5808,
0x28b6ca5d7278ca2537b3167bd0e8c8094a06ff3453e060a1f52f077ce3c0f9cb,
0xf7036425c9f4bc087576419d0534698adef68a0ded0fda90b211bdcda6e05d5
],
[
0x121af61f4dc5bb24890abeb9251e5cea94770ab062dc0c28bb8995dd8f183635,
0x1b75bf6cc3265511f786609179f18b582a1b6261e9e6a9f05ac7e9a4bb015a3a,
0x26b90bebc295253c79bbc8d0324cec9805f3730a7c7e3c8cfe7220cc90b2ea91,
0xca34892eb7fa3d7bb497043be8462cb387ed055f83566b165a7dabc75bcc623,
0x1ce0f7ea351be6aa78e3ded0a3d69d69de3890cabc1bfcf40583226decc32d54,
0x1b5b9f9ac26a2e054deca324c9c92bf4d64b0b7be729631f2350c4db32232768,
0x94707149dc563db7a45c5cdd80091c3972bf52a6ee3f8eaf0e6bcc6ac0e3976,
0x25ceea2ec9fe11994d5d6c2e2af196963dfbe8112cfbcdb49c5b80615cbddecb,
0x2952f32d846a2cff15c9f028f02fb60bfcd8a7b34ed120ab6e393a1ec2794a4b,
0x930264343e7f5af2b7e5a4f7f25d0be85825666a68d5c02c5a813e958c3253c,
0x3f289db20976c1ec1aafcd0daba9c386dd8edb8e577311dda9ae8082369891a,
0x183e186c2c72f4a35c4fbb1eef8237e1aaa2379dd8d61facc59d6e5f44da0a83,
0x1c921c4536be42aa8a93ec0ab11a37231dcbc0ca9ab7749e3d5cf9913adefa8b,
0x8ecaa57e55d210f56d9c8141f70394e59185625df57435ee2cc924602212203
],
[
0x2ca8ffee2d58f2945297b00cd0b511da167080d53949b3f1fceaca9616b6143d,
0x23894e025a72e4ffd1580bfc4748a2725ab6f214a8f84e40d266e5183c6db8ed,
0x2600d56e9f728b982f23746da7a2993bce578e7204b9edd1f474405bd7593103,
0x23e3b3568798af43a561614af2c8aee40d2249d9f58452847c453594dc8f38d4,
0x2145a0959a46b3c43bc559b8811d309d48a452423025b85cbb3febcb24f4066e,
0x2f172acf4fcd26f6f939157d0da15bcbffa981ef6b22f7525c69f9ebf801192d,
0x28f529934ce9fece64356acf523f32443178669ff77a0ad6e7b86020e413ca4e,
0x9385ccdd032e8784bde4412886e9a590ec85ff5cbfee02a6c5dafcaeb90250e,
0x2a4b9eb8b2f9e4c4f2fd334185a45d0d2349163bcd7b808815b2e89543c09412,
0x3bb2a5b659f1f5c2c82bbe5824ad64a260e21e688f5fe01c61632fcda348adb,
0x29e0c22a0db446552403a18473a2e5d923f0d2a81b23f593877de4657fb1e877,
0xbb85f352ad58d8e5998cac57a0fba1d49349aae47164fba3343ae32ccbe4206,
0x24e9c71c5607519169015cca5f0be8e416f21194fc7d610a38d3e48df56dd40f,
0xa098b67cc231ed6a2b72bee29f823702b67dd0bca78f7316543097856b478cc
],
[
0x2c99ef5e064147da9782b914a294b6c14d21ea7eec1f72e8761671069d82a134,
0x1605b0bd96a60af6d3ce4feeaba7498571b693596f79c09a3485cb6e37b1480f,
0x1b322f4a92d336fb2b92e1347e0f73037655b344fa6ceb1275eda5baabf61dd6,
0xde44974e91df8151d38ddb337dbefb7b2423f8c2db33c95249664256049447e,
0x1cbf2e32e48308fd5254bc8466ee1b448825badcd0d038171d39d77bd61c122b,
0x1e25aef828ae1b75374d1806053383a3afeb4c247bb3f4fc602a31258129088f,
0x28796af2b46e4481c8c68767d755b2f28c2229892c093faa86ea6daccf4f403b,
0x2b9c2881bdbbcab60ca2981c28b4228f8ad48e64a7b393ef4ed080907e6a1774,
0xd00d400c8809e16db25f2f1593dba403ceabbe3d0b868399bf12c1ce2a6284d,
0x17767169e7d1636e0cdab5d29588e903e1d4343000d5b54f3e523e956af6fd58,
0x12e4b3d7107e8bbf73c227c3fe04ddc9277aae8cf8b15a769c7039d282661866,
0xf53bacde9c9005381ed7bd0d3a35048f9b04d99b54cad41bbffc9704a574abc,
0x241e0bb48bf63003f858adf8134bfec90214a7836f7af1bdd263f5ac91906803,
0x106f70b5c82b6a41e401fb3c05ed0d4a5c1d6ab66ab048d2a928a323556632f0
],
[
0xd7d07cd3798f44d832a6571c21706758693e5e93684ce2d1a5e8a53e0cc6709,
0xb6ea459a3eea9912c01005ac024cdcb60d77df03bf6d57f9de9277855f5669c,
0x26f749e039b1b58e9fd714e0b5edbadd2ba23f0faece28348ab8eb36126e4a7b,
0x1a8077b3370f7e65d450e0e536e1e73c9ce33596023de1cb2d4f1321896f5184,
0x2f6784fa0636348e5b73d52307c09dc7de28dac12256995b7d2d8014be1511d4,
0x1b4e7d76dd8cbb42c1e90574b4f832a07a53912dc74b2f1983440252c232ab0a,
0x9367ecd533634327435fbb0317bfd4de720261bd6c77f2348f0547d4dcd155f,
0x290e7fdfa796c9a6a1b3c2e6d746601f49febda2af0d2e7ede804b822400e81c,
0xd532c4429d77c08679ecb541865f7230787381786f7d98d62a06e8a7f33f3a8,
0x78ec6b19c1d89049a01ea1a959df4525e1fa2b5c6d9c7fe00ecd899af5b8693,
0x27932ea804885d901c0a89103c29995ef207e753574a7ed679b162342c54f27f,
0x20fdd250fd434a5fb9072c597b940cc96fec2986fd603526b2becc58e431c8a,
0x211dd323ffb6bf1f7a0c747597593c44053c3d5ad428b1145d04f0a728f4199a,
0x437b94aeaefff8e636816d1f7484e12de60de9199fe298c3a8466036fde9053
],
[
0x29195117106623ffffb0af525c838686d0d97259fc73a5194609ac7b7b171313,
0x16be4a147414ff8080b2a744735ee85e2327c3645e26a4d21846bbda0f5f6ac1,
0x15302004242f418b70c701b89e3585ac1d2cef27046b512c7fa841e1c7fe564d,
0x103099f79452ce6c8848e50bb04b50723aff5ef915d2d7ffa0b8f72bfbb6a906,
0x1cddc847d2f8d9e6c20ff55628cc4e9cefc59a283a38842462cbe60a9a1d0336,
0x29bb557aa48769cff8a9d0ab0e7149f835c5552e5e5ae7e6384043790e45c1ed,
0x1cb2f7fda98a18a6fd20de6fbf412d07f0f41fcdf2088dfcd0e0b852fdfb1aad,
0xcddfa96db02b40d78f740716d6aa26c2c6cf125772a9835c9a34a9046702db8,
0x1f0f734e95a45cf07b70b85846b65ffd3c1eac10a95e0b917f27ce25c0ee4afd,
0x14ec222b4b95c3b602c222640d8d6dcae21dabbf1e805637ec3bfd8984577c08,
0x18f31da4274218b2691aba9611a798cbc9e9405f111267cbf424a67799ef67ee,
0x18a38fbc04f4e85a687161544a2e3323bc7bf504a5ce34e8ba4335767cb4eedd,
0x218b8f679b6f2f6070519663f49d69fd9043ba6d1bcd7b7b85e825abf8bfecdc,
0x1a3d570d5a331ae41c938e81e8155ded345d180ad5ba49b4e1bb70eeab467a36
],
[
0x1b62d4b17de67375b58f248a88dbf707cc9d1491bce0095644ca0219a01e40a,
0x23dfcb4155e378ef7d127383d66785b33808a3223e22a226a3e3a0f7bc5200a8,
0x1bba25ef90c2742d6bab9309747fc14cc73e4024c803db5e58c7d2525839b2ae,
0x4b3c3687111107b6b39fde1f5eabb0de5e2fafb481c0845f0e9e3e5f90057b7,
0x189aeb454f60721eede010a005c4ce55509f152e6d0e93e8c5f9a9a6d3adbbd3,
0x18572091465cabeb96748f5482d37d3926bf7c1d6680dc932f45f55a7042b02d,
0x1a5ccf7ef451a14b3fdc531a52831728f5ec26b86ba77c952701db2913a698df,
0x152f38cb9808d5c942c23624abe88852a59f2813392030fdb7b1753025829991,
0x9e543a62e93aa3005be9112a49c5308f5b6f79591b4824f6355ae12300988e8,
0x1a145f49ae38f332ad67bd90734b8bf9d97dbc5912cbac8f57417e334f14230f,
0x8857c8b3f0b9a7649805371c01a74c84c67575d9a17be0e5590aab52143377e,
0x25fda357cdab4ca130314a01d381febf812c14473e4bc9b13ce8849eef1cbf96,
0x27b831fd2727802f6a873109adb4196ece489fb5b48113565d8113427aad42d7,
0xeb8c6eb7b2a00cb45db63f58e55d78f1130d92a56095b485c662be692644733
],
[
0x2e1681bc7c22d24c433f81dd3a326fd0242bfc7e2bdeb6307e4d2aca32adda1d,
0x22415ca10b65c83a039f1a749e649fbda0cfe2fe3403477a40c10689ad5af158,
0x21c92d239c137b9a280a728acbd058a8c75f321e0d254c346aef2b0f3390b07e,
0x41fc409e13a628d9632b87385d24bf4f2a712e3642a36c9875cbb5e90028065,
0x6850ae560ad9a7e89bf454f4300cac5f5184453afe49fd3552e63e44e72ac55,
0x291f4b78708af2e6d2021bc67b8b43177e7c0533ae1d89287612d85cbd16a4a3,
0x22aba2a6f80e91b2b4912240c72983f027a4c158910c03cc1cff66c545f8750c,
0x22e33116da2228316bf3d68b2f1506bb5b5b87ed556aafe4f1c1638f723b0a5d,
0x27885fcd66e6a1bda1f55599328bda53f0dbbf8fe39d8e025fd500e44ffdcee2,
0x28dfb66df089941c1b64c42f01e015b5f3bf8764452add9b24f4065b7d276244,
0x2e5ffb493cfee9eeaae1200f360829d0c2c09ddb592d37d0821363aff6ece299,
0x21157a29f47613a80bdfc774d1c8278abc3f76e15937ce9b24176e1b4c9e3b7e,
0x1cc9014506211730afa1e9e45c9f38b6e6218ec646e79dfd38ae0cb8d96ccffc,
0x210396c1be722404813dca0f052e321e183c00dd1671044b18bdf1560b04ed6f
],
[
0x65850d11d0eca87c3697b6f5e57f78ca86952bad1c9047dbd2eb6be9e9db30,
0x854fec1c464e2fbad9ed6737f451f4ea27b6a1d97349941928b5911b5b7e3b9,
0x2c240af2cced1a6d0d5aeddc36c875d3a8e74325772748ce1cbd5e01801b188f,
0x804921684796339f40259855eb51f118262da54c1ead0364ed73b7b6f328dce,
0xfea56a59a68a9d3131f96672be04f078937cfae01bb185c074be5f74a37b226,
0x11f61a3860411316eee42dfb735b05e0ab5a905a2478b9d446acd0fb1403d00d,
0xa80fee34581fae3188ac5f2c5aac9493e6db12ee7a2782a036aa65ed89f3825,
0x75c8623c44462e495ac4b62536c790a89875e9fb559e29fb51c32d6601ef297,
0xd4ee74163fe389031e01f793b3cd7f76971649372ef075dd3f2596333c5a6f8,
0x2a06bde137eb0fec584cfe2f11c2ca43be25ba8dc31e0522191cbb63ffc50b6d,
0x237277467500a6589f208fe577a0ed6bbd805f5bb1fc0543a22f21cb98b46108,
0xe20cd93d855c7f14979bcdb315d2f9891e09e4099cab4f82b66481d013eac94,
0x12dfaf2a058c0890bca0bc89b72eb4a575f10b43a009c6ae22207149884b4638,
0x299298324b7b1e7cfb05fa7c62c2c471b5a8dcb233f8c9e1becf67d8bdcb4416
],
[
0x1a59b36b94f9d723577e504d600c493f2810f0e67112672c743abbb13abf43b8,
0x258e09e408d6f662f3539a649aa156f18cb46302fd0fe34f007b731db06825ac,
0x2049f9cf12d0e210a7d82a56694e58c76d2f1c5ac572aaf9b6fb770c09f8dfae,
0x2d4687de2ad43600f6852c2a191cf74d0c3e4a7ca0506f974610833fa201a72b,
0x2803e055305e45f9ba2d154206439c02a37e8a5c3fa8eb38d883c75137d96216,
0x7ec1b96a04d4eb1f0728f1fa0493019c6f1a95456997ba5003bc2bfdcf43ba0,
0x1dece2bd9b515875c114246d055fbd55492a7d26aa8022227192600fb17c8c82,
0xa1973619cf434b77422536477683d092d710c68a3644946e11dfc5daf4c3e35,
0x1e4a2c836090a5c960931f020bd616629e93cb093ee02285f8b9d850a74f8b57,
0x2a12cbb75facd8548f0d464d85c961acb166b73aeb3422edcd1c3c0400824673,
0x2ba25258891906648372370673f8b9701a7a17f5159c26f83acd03dbddecb683,
0x19e70fe4bddddbd1a2010dd7f35ad802004b8486a6a1296b75fe87c2c5246908,
0x27d1991b6be57840c86c76792fd9c3b44cc9bc56569d8f5d78012c17c9d01b20,
0x26a6b81d5d4c3e4df5e93aeb39266b56a536c153210b9f4dec10ece36e3f9e
],
[
0x1a4b186b77cd53f961c8ccb7815d9781cef7a52af64d0bf746cb522512d3d0af,
0x8b39f702949a0a1a5906339e83e663519b264c3039aba4688bf2e3788b3ecb6,
0x152877c59e07350aa9f0b36db00c436234c76249dd0099607b03567b4e7f056f,
0x1156a55febc770d3e72337b4db1bd2fd680594a9c9dad08777aa5d898510e5c,
0x1e2cdbd10cd7e2993c0a41fb073400ff938f590e30b3db6855f12c129d681f12,
0x4f089c87cb7babaf031a4d0d0f5c08e00bfc99cc7befcdb22e55256170cfea5,
0x2ebc3e6c61ae6901d3047afb5095d5f86071a28026a7351945d6fc4626c2f1f9,
0x230959791080b2d262131ee7b43c2de9422a9b3a59ee1241e762ff0da380856c,
0x10bf2e728bec374033c31e16bab6772056a1ace43bb4c3333a086256e0ed9d8e,
0xcf6a0317dc98ba7fbcb0dcef53d804271bb932225cf3c2fb8c0564b898c13b,
0x1306e43717156fb4e21ac64165dc5fd04b3f5dcbf52314fc0c84d09ba5b6578f,
0x9a6e0063c05651d63e8365f4e17415f0ab59d07df4916e9f3c6f649c4f10250,
0x211a3b4e93de320852f06668c192079c3d65a00de2a7cfab966ce0fbf9322ec0,
0x63781e7bb64e40ef54a4ac17d47785b8fae5da0c4b3bdfe4de8edbda7029bef
]
]".
(** constants.go:5812-6070 *)
Definition txtP_15 : string := "
[
[
0x4523bf1a8f284c6d95b310dec2b54e0e00e59b571dd9d46b6201c18e1b56dfe,
0x312e3298297ce9b613e755220138a61f6fcb449e9f297bd2ab37fa4b060c4f8,
0x237ee46d48fc4719f3b0c74d1ce32d25ee1a406c86226b14963597d77d3b26d7,
0xe643d3d4ee78128b65244451e50daa769353d675b70cd9f3642127c70afc096,
0x276252adc5f9add05d80d4d975aa6c8506e5f3615ad04dd19b6a8fdf44554816,
0x40e4596ca95fc409132c1497cce79ce1293bf459cbf2e0b1ceda174d0e53e65,
0x6efbf7c9bf4c721cb0ebff67730a41eb0d4498251681593f54d16da5cf2e24f,
0x460e5c59d6292faa4ffea5c4f0f5b618c30291ef6259d2d5bf756df87a5df8f,
0x136b729f22d1ca74db0f67b12512925ab8597467cedf52e6d289407563cb253b,
0x28aaa152884edf31944d72dc318424c0da3492c9f7154dc8fbcb6537cd7e06bc,
0x23fdac37f71f97739b9ac6b9862be4bb4075a31e9d2118c7f4ac5074bd7f2692,
0x767aa1fbc4ea303a476f04423458ac3f6e45404c9f22c30e2ee5dbd7c9348a1,
0xcc0452c4e5cd956ef1a3b4ae5bbcaa7be7acd4c2f72d22d65077587a91c0b01,
0x1ceb88c33c35ed1e6738b9ed039e4ab506bf7ab0f08a7aaf7dab0caf13eb0e68,
0x12a998baf33d6fbf6fafcf03c462c8a5ef7704b181abf2414b689f9eb08566d1
],
[
0x19a92ac6087ab89982fe5650e5e799f91003fd8b45400748d2c25e40f04c578d,
0x27dc8579136c0e71f75b1cf6f5083dd8354d115bf414dd1fa540e5f39f7afc72,
0x20428c044d22ee0bcd7a3e6fab424e8b80af5027762db1e96f6580139e2bc093,
0xd17aad3b6fbd4fd8bae145159eba2a61ac1244b3fb460222167b77139c9da6d,
0x180d3e114e0939812b91fb0eff3e0b6109043c1d4018d1d2f9cbc79e384618e9,
0xcf213b1d3f6fe0b137e4524b963bed40993416f8f1b174fe697fd55079f3343,
0x190b37e8c9b7bd5ee60d0a8537d47a1a377f7a5674c75a99540baee608fd8f25,
0x3034b01c2fb47a98674d730818419829480394df38d331ade2700d39138a43dc,
0x6b1dd2a5fd27efc3cd1aceab1969f68e4959b36a0da5ca5b42c10abf0d230a8,
0x488a359cb7c3cd4063adc6ffe91ae4613f72a681535e35b7b96bc26086bda29,
0x153a1ae9f00d026c31b3462001a07a114b4276497c8144c42af93d11bb383d0a,
0x16c499c243fb5cec60a76c3292e05a6217471eacfd3ab2b95b409a367f5a77fe,
0xec171c476265c4877db3554fa9f482a8d6b647239b89e48a9097f174d5c5b56,
0x445f4d9f49d4dcb1ae866956c374e1a3cb45419e00f5836b88e5ad16d639eeb,
0xd9d065a53ec9ea1f2f08c32c30a37cf2b7ad1614e60aaf3b91508a3ffb3b301
],
[
0x302608d750f16491df5a285f5f7f6a5ce6b554f5dacf0b69d450b24bbb4967d7,
0x298a90da4f4bce9de81be6912c6ffb796d04c14432c8c40a105a28b135ae2735,
0x16065604a60cf2d7e406310a514e428a734b27a86e2def6fedb3f714c1679c58,
0x1b8dbca850e849940b154d50c6ee570c32444d12c847c2016b35149230395060,
0x2e93afeb1b3520058245bebe0d269664b12e730fc45bbf46cb66044d57b5bab8,
0x2eed04ef2e97eeb4738187710d3c3d598e60a7b9e6484d4b4a2f0983d2970945,
0x1b76f377622072daa3d1619b1bdc692333d5345b67f36f430cf516ef16eda936,
0xa20b0fc9107098578122aeef4dd1bbb7ef353e400ff70d382ee8abb7c481e01,
0x8e34a0ccd379ed1c637f8272a3a4cad64937438043f4ba7f5e5f5b0adf687a1,
0x1d48b6efe372666fc8519de0f01a8e5d360708e47dadce1fc01000e7dd4527c4,
0x260f8a62766f0e259aaf537577b1a99d50bc02074e10f624e91c36f3bad5491b,
0x27ffca574c26cda5aa09d071c5894e0ed95cd93036e2193e84b4e5ea7df06b0,
0x2d723e71184abac895077f84c811f4135f4d7acf5ab28f532990182a43873833,
0x278e3dfc235e7b04caeb106a14460dd6a7471b6f19d441c1f738aa625c45f28d,
0x20fd0cdac44c5b5c22cea47ac2b0d7565819a0e8110932f0e04c300eb32b223f
],
[
0x1a3c7daa6b4af5662d0d8407b287674d83eae5b7563405f48def49981c98c424,
0x2ff508346df0d408d3d1109b26123bde5c4558bdab26d9cf3c6374a6f9291864,
0x13674b5d0d749caf2d93724d234c9a3a7b9aa8ced4f854b853c07a6d575b7ff2,
0x526e69c73070647cd5d45609e6f557bbb3b4cd4ced38e3982fe8fa217a5c22c,
0x26ea6a7932de98e85daf38c6a9a75cc6c016aa9eb31e78d7b5af1ef3936cdf54,
0x2ea7c830de80ac304f4a4342818cac408fbe27c811b25a9e6c1c2cd7a3a63ec4,
0x213b177aacada821231c6bc2090ff354d629cc89617d52a340673497b0c9b294,
0x178cdf015d8bc8ed5294bb31b6299345cd5a33e5ea30e4f03f4b6bbb2aabb2e3,
0x28548c8bb786f47791c98c20d6921d39d82a2c98681cd10f1805d4b3384605c5,
0x2a7d9ae2a915561a62c884f5ac71ef11815fa7345f61466abaae9bb172382462,
0x131105c4381b5f577a61629a53e074ae66a120d7ef9bb5c27ac675bf90676156,
0x185c152024c4fd6afd5f7f6f95134da079ce1614a9f4e03f2043914281041384,
0x1ca9f045f715d29458cb1fbdc8d84a668938b789bb4e9837cc7a2dccf90cc569,
0x1f22be26d5167ef4bb00117f8e6ea1f2866e602a986289bba484ba2f1e875591,
0x4bbff61811db870b42bcce9be11642d53a88243f2f8271b60897565ba6a6a60
],
[
0x2db1c9855ac29acc679367dbf70f08d98894077df2411f91ef68dd90177c1e9b,
0x1347afe5529f60fe7a738494455139994ef976212daeb0289737fc17d67bdc30,
0x17832a57483ab46808e944495407d84b427a250d2f4d8adedb0da2bf8b00f21c,
0x18aff8fe5a1798ba94632917ad3e19d4d8eccb81195395d89b7d631cf2962663,
0xa3ebcde6fceb125aee70284064b2f3524ba816c151fb6245e07cc33c13d97f5,
0x17230666ed67a7740bdd76a96b3ebcd29eca4301e827b218ea24a4a56cf11eae,
0x2efaf6a0e622f10e54e08e0e0acd1e4263ccde6164d805fc5317f9eb83418c0f,
0x2f1240e45287424dd94a661e56b89f0e5a11b9e15fcf896d04b76404ee53148d,
0x2bab506569e55b5d04ce7afa2434a095d3b43f0329b74519f88c1d63c705ec41,
0x280c7256bd6775f497c95849ff56a53a8cd9b01a60205fd41702a10532a7ceb1,
0x3de768cf69223497fd2ea181708751bcb42a0e8cf3f8580ba7d0a86fff12881,
0xaceb3f030450738e2cd5f1b0177872a632cce047ce9861db835554b1bd9de83,
0x14b711d1cabba4675d177f17d623824b3a28229a551f320b3355a9e3f9608c9f,
0x24bb09e90e64f5c63d53580b531079784e4d59d287c933d613aeeaf59add06be,
0x213b22a447492a79d3152f0ed7ff35ed7f580591cb2dfb8d91ee9dbd67ba64ad
],
[
0xf06ee47558f182d810bbcb214a25da7f70a567a0464b348e1b30eca7de99d27,
0xfcd2ff5c8f0bd2947b6fbf00d0b81ebfb76064cd51bebbcdfdb6209e6634bb9,
0x302b344f13b30ca0578bd6eb52afb66c031b33a229b18a61a98395a95cc4a77d,
0x22b451ac56f38245014eee401568e5cc508bdec222355ab1f7194493ad7f083,
0x1b3bf735cc8f4d38d737f7fb6d87d70646bcf2fdaaaa2a02fbd0e7585d24f37b,
0x1df0e1d73bee56ad584211352e7cabb7c748edf107cd8c5750c6293ef7fa1d87,
0x994b0fad98bd40de62c6a239fd21624a196ff95d2bbfa22e0416be5694d67ea,
0x4cd761f316ecc1b03668f55b6a6a9a82ba2fd797ecbd57013176ac85d8517ec,
0x2398afa197096947d567f16acabed2956bb62acd9a5d898be5f7e154b5ce331a,
0x1f63018449c6f982d1364b473737e009d0004837e9b417d100aeaef53e5571bf,
0x1b531701fd6b02b680ac96125396ebf4df7f83acf2edfe833893eeb5f2c3a848,
0x1412ef160245006ba8ffedae4e0a1aaffb7da57e70128959a5b5e1503b4e4087,
0x3ea51d0d3eae6f814251d648892fe5985019645a2d39bb4d4928e6b4dd9d702,
0x181a8292b083644b0357e5c5b0fdd3162877cd14d98c3ae8e4e01fa39b19f468,
0x1aaeca8c009c0588d25f56bb9457a2cb260b14e88c8e81389479edbd174d73ce
],
[
0x2166d78d948dafa963381cf1560d00bf3a0a1c288a743344c8643a58daf8cbb3,
0x2fd8655505991d7319eaca4c4b736ee81976b7b325c494ab80c69db132e55196,
0x14b1c418f3c123d91e084f3867dd62b9c73866a494c0646054f7d152824cb0b7,
0x29e7183a40f1812fd9e690cc6991f46516c6a11b6d63dfb275bdf45c2e830daf,
0x2d6e071c9a8c12592824b246bc5024f68d7f15780b8e81cb917032ea3448c77c,
0x2bcd6ecd21d028a8af782686b423a5491be09d311e8b8b311a76c6fa3b6e846b,
0x2995eda96f028f0d823d390a39a08cec8844eb9ce6c8e081c573263505dbe1c,
0x190c2382ceb77e73d72488efff7a47394c9eabaa55e913b3876f5c7425e5072,
0x1cb68d0b5a7d1e5ec01d0604e9ada4e8b0e5d657e0c3a4b981d9a89585b5b1e4,
0x17258254d8e0d6f925e7c0185f2098d534afb0760706557c11cc93481dd34dc,
0x559f237de62143ce58c3f3ffc6fd45cba5c2cc03d7a5b004324a2673ff6d5b6,
0x2d1bae8c0c7b65e609125c9900ed01b4fee0b246e1d5b40f26a321cfe962044c,
0xbb07c4601eda15ffa0c7ed3e9b5a7331deae9260915c930d39745da694ded96,
0x29a3328fef53e260a43f8fde8842280d1b74ed96c3233c5058fcf5748459fc26,
0x2694a19e4af7c2b87a94dbccdd1b3ac611b1373131cd5a9d70bc7837d8f820a2
],
[
0x2929be9bfe3f93cd34fceae665d96b1de1afb26bcaeea2f4edc454c50cbc4401,
0x19edbb7a983fcd768fb267d9c4a1fea3ce0b2a2b9b443f0aaa46f06e589d14b6,
0x2c1ddb439b10a092b3971318cad5b08debe8dff603bef4532577c495be1a724e,
0x28449718fd137470b9cf97b815c2140dd1c972ba998e2fe4822b7c0b33bbdfdc,
0x1f0655560b2334547cb948d9d6b9b5907c788a38ef864ae0673a78094fe7ee7b,
0x136fa4ab79c28e0be9bb475e8d02fe991a4c3e1963f8f02bd99fc08feb8af068,
0x1145dc67ca067f540d071fef09cbb91e1d3deb8202530be3829f4a74b97c83a,
0x2befa2b6dee51479054fd8dd18588a47a402dd5c3c4edca0c6c5fe3cac3058a5,
0x1589963f1ad9685037a5090e0a726b46f0d68e01b41fff4e51d7a7ee3ca0384e,
0x2e23caeb146870890855c6e35016e8fbc54757333d84d986487193341a6942b6,
0x5749c39afeb687fbf56b6749a6d2422caa3b4a4a98b702a4958b7e4ecb2d37f,
0x178880d1f6ff2f9b8e1ac338c92a0c8f92803e7f4c277c589d8f4d96102bd7d8,
0x2458edb63177cd46b51ff3f5054376a76640b495d598e472877d4efb647a629f,
0x15ac4c506f0e4516834191a3a6aa8cda30a2b3882ddc8d063ec7a9c38c4dc014,
0x24a5f8b16d150a9683e69c3ae603931192560079eb25d141ff7c2cbaab4dc9c3
],
[
0x1076d439c67997c37c6c1fda9a37dc2f762dd577946f36fcfdccd7898ec67cd4,
0x2d9c1650b528398e8d52dbc23335384e54aee2432d635c70a02d96243ca0b26f,
0x1b2c5206d50be044598c5897e0b4b0221bd37b510a437fe5a1b4c1c69c601b6d,
0x2edd1fa77896a64dbbfced0977e08337ee4bf613f76e8a2ce26414548b231653,
0xcbb908762517b41e306b6909833d5a107634426f22973fe83f00b0e17f13296,
0x24cbb3c94a026a76c045e4c6edfbb1367d256acf26d02cc09412eda7f59a7ecb,
0xa0bd0ea059162db49db00cb2a940d57b4a174de0f3aa95507bbf8bddfe17b1,
0x1b2b047e9e413d748553f99dd8af9b25efcc5e22d45fe891dd28f8fbc2fb5301,
0xcb96ace8a27b43f9e6227f6712da13e1fdcf8f3f9908a3a1c26a35a05b14922,
0x29ac01ae36569271195fe075de8ddfb4380c3a02d43d7342a1fb5117b8de2a53,
0x42ebef9c6a4cdbd7c6cb04d45d2e0c2aaa80deaf78bc1f58ef40906cf3d0210,
0x2e38bf07c16b3203bdbc7746fe5f9179277cca8363c860155d140ec63673791,
0x207e9157c54acea4ef46af721cd9b2f57447ed4e87be8933f1d0b6d814d6ff2,
0x167fda86032760fe696b4920c81f53d843f93d6dd536f230d2004eb414bffadf,
0xfdd5ddada0b045a445aa344bc61b1ac05142e1b5641aeb7e767de15abbc9bf5
],
[
0x185c9ad0da87cf824624d02bec3ba4665822a0f6b3b25deff3afcc687ce1321d,
0x99fe609dce91a41f172017be2754fe99ebf6c15cc57f31bb6f5b7d807b1f7ab,
0xd8b8636d4598fdf5326235d176c94628e61b4e7c82e78b4e564850ca2b2375a,
0xd65ab8a42892dbf60587c701d4ee79885301867045a954e709a0b39a96e3432,
0x1ff952bebf30d706276910172a3cdfcafb099480002dd0fa8c68288188ffb47,
0x1b317bd89d4ff133f75ab4d3d0b76a79ae01b0dff996cf34a725196ce703c17e,
0x124794d78885d5936bd03ff734b5c1adac8a4a596ad9f82102c00d3a684dd7c8,
0x24ffd623daab9fe13588a1c00b7f8c8f1ca8caa530a1c7131b466d950f2518ca,
0x2b38ad1a7b652e9f8bf0ef32be28b745c099922eb755a34186ac9090567d8bd2,
0x19babc734091a3be933427e66c377144245e7db110c6a2baa986003947a240ca,
0xd0289a40cf02926cbcb2747a0e1c1518e9c4f704df6aea14276211c24086080,
0x28bd66c5e1338f9704ff07003bfc744bccc39f7ce6c8ab5a577dc903cd264016,
0x170f77a7b3b9caeaf5659fce45eada32edab843510f0c1c1918e78d0f6f250f3,
0x4bf7c50eb8083a1b1aed2f2eb1e3e6ac6dac94088c526643d43fc4ffd6750bd,
0x2cacaf80e8db29ba80807838954a59a587b839dae77fae26c3766144af1c1731
],
[
0x2702b1be39e91044fb73926c1104719f4c037aa4151823ceab24f0cec49f4648,
0x13b4dec836bd9ccf38a503e625ed8e236c54e696c74637ae6a3686a805695912,
0x1715f73ecf73e36f8e513b1cc9ab6d82c38edc2000876f5d1bae037be5c99715,
0x133105b55e6c880ddfdf28747478b9cee5fda98c7ebb0dda7501a2798386f9f2,
0x2c728d02ad11c999b2b9b9ea9e57d496572871e774331ae56374f238082b27ad,
0x23ef277dfa1c0e0d94bc61cb2e8bbdcea30f4d4024531391a4c3e9cab4543b3b,
0x16431ad5871bcae4168c2b861ef4b0b01935d119758db9aae06c00bd30db4df8,
0x28db93b12307f5bee8a6c0b7bcca8b2305b688020740d4345fae2d04ed2505dd,
0x21b0ef1e524d8d9ebbfc6c2c749d0ec90fae708de520385ea8bf0428508c5d5b,
0x19d13c633e260305a71528af4eaa906ca4427977dc0c747c8a6a4503fef43e8c,
0x23d809de14b02c1069c3e14dff538b910e484afeff400b2c1d24fb0e0099cbef,
0x13fcf2fab4b4b66a25dac0cd517fec58f5ac1850d867be3be4aeb9854eb30efb,
0x161967aef1a7f7907817e10adad374693d3d1f981ec444384c4db438195d4daf,
0x1694d5ab473f9de3701a254240a02a4743ed5291b9208af4956404ddb30a4380,
0x1c710c033318dcb32177032074580a3504f248668c7c53de567b4830f74c9ea8
],
[
0xaf71a51cd463b9faeda93803cdc03186c7781845252fdf4e0155709d93dd375,
0x5fc3b1799e5b191257c7a3bc75e9fa97b164f3f4edda6ea6649c83267be51a5,
0x1c4497521275cd86c918551760f4d35becefa8ed08036c9c18d83815a9fc7f8c,
0x1c65c1b912286c5b2274387fa7965d6b2843b5b01b806bbfceb590da531c68eb,
0x29d4202e4558503b0449242495fd9ad2381705256affbba80117b4c2287175f3,
0x2933124ced84942c7077b2ac393d14464d517c7d8f1e340694ed5f1acbdff129,
0xbd580f80ea79136a9b520cea04461da846d9f23e62277f13d6b3aa6ab108ad1,
0x57b88d83808d3675ba199bfc5780633adfaa44c9b1e32463d66b79e1c6dff3a,
0x3a6c87ee34cdae1ddd7982cd318362e1a278dc9cdf1cd1dd03b6c36aff836,
0x22692fb680511799b8ceec96e7ca0e1cd21de90f94856acf334ffbe2fc262053,
0x1d85033ba0c5dd804c5237c31ab8b09684c635b8b7578c50c246b15314926871,
0x2b52e9a0a9a535ae05d79b8b555d461f148db269f49e38dd8ec6f8b8da106aa3,
0x2773fcd9cd996f38297b95daab22c1e79f179f4c79fd4bf6f4abf8725ecd5032,
0x18ad7311ad63af100808f64bdc63392bfaa0a3881ab03c3157ca8140868a70e1,
0x19b88372c544a69321b273cc62a95b006931a64222cab4536e797e578a56305f
],
[
0x28667f9c7332073e293c80b98edffae01af4f67b4c52ab45e49db8b30f182d28,
0x1d0cea849dc7409b3b26de35715b32db618691bc123cd9c4c5e6f40b4a1e49bf,
0x161556e03e94c7156607cba64c0bb7fa00bcaa126df8afb5d42976c03b7d5e0d,
0x419c20a2ef9d70e930629591eae4c63276c5d79d6948e98f2c37acc29f1a4aa,
0x1d4a3584e3933abffe0977179b8c112f2cf08e409d33362df4775d1373f4d366,
0x104bd1b4c028b287ac3fea1ecdcbabdfa6a065e9772791c3de84d945542fc206,
0x267ef84e628bff8a9a85df724e4c32cbd3237d91bd65c43618d86502032a3694,
0x2d361efa8fc65b03d45507cfb53549b3b26a84ac50b3593dbc052806ecf59fec,
0x1285c484100d70c992f6b6953a9955f56957e9a17641679bdfd388b6bf60ea42,
0xe1a46a527394539c39e9f1e4426d3188c0d9077021790734ec0126d0828fbc7,
0xef206f21658db03fc8d5d6be5b18374247aee43b3f29b430a6fed7fa5102a84,
0x2ac3db07d831b461f38204aa0454b1edfc1a0de5b7a6e15e49c63bc7140c3327,
0xeeadf9b5fd85f9405991af7f4cb2bda816e5aca76103b34b891502f921d6096,
0x2931d38792a3769da52491346c7c6f8f106c2735ef2a1ca03725396983a0049b,
0x131154cd6dcbb9b469cd6860b861699845abcc41f428331b1d2beebba8ceb767
],
[
0x2763c33f5b2d7bc3a23040afbcdaf998bb13254c272a5f8635a12606a59c2e5c,
0x27ade810ab16b1c9d9b363d48e397adfc79af3a4836ed63c650053ca057a03c0,
0x177d3d44dd549944ff5772d4742603e163124583cfa4b673ccf1a25454ea3be2,
0x2c0de2ff6c43c1d034459dc8458237d808fb0ed445eae2cf7e972c83f006995,
0x27ac47846175fcaa604d687cd2ed41f2ca52905b2eefa79eaa8583ebae76291,
0x165a3778b89cc7da792542f4c9a6dba92b85175a60d3661beb77852b238629b3,
0x27e08a80dc448a0ea08c79c9198e57512968df40d45f08c26ac8242d126aedc0,
0x1fd804ca6b5d2a3cc76ae1f125a0bee456764db7a553f48bb47f468f3c57a95a,
0x174de7ca0ebe6a1290ac6a8076d51b85fe8fb4022da95a59a6e9f1fc2fbb2efb,
0xf3deafe2fe6fbae9417eb6b144885051e5d1642e49b37469d39a6bd6cbbdbbb,
0xecfff476860b104100ab4d0dc92d93b993024a1c0d6d50b339243e9ae67ccbb,
0x2cee2efaf90a0e74febcd521cb5fc61304ada5f8760adc044cb684f341b646c7,
0x140214189bf9a4001311fb36b9e5d27a3f3ceba32a457135a3c66d76e8403553,
0x2a90f5ad074f3e239345c3d75b7081804b34fdfc2fb9f720a6448818946ee976,
0x1c373710856290660f38b96ad9baaba487a10183260e1d06f9b9935d36e9b0b9
],
[
0xf81a8d8e08758e8a32aa8292666c4cb6ba3f5f06c4dcf4fc502ff97f03a85a6,
0xc3bf8b042a0fc9b018e64d500484eeccc8086ec911012ee19a8e94c97b1f8ba,
0x10539e3badcbe0386b58327fa5ec50e92d483bcb819b41b21dd7c54eda76a99c,
0x308a3fa0a2d7ab2ef746509f2fb76d1a5db994586a54e9d109448f18b281b31,
0x3ae04f50079403a7c6f13c02d0ecbbce7631eeeb2f9f284dc7c2a52fbff4770,
0x6bf4105aeb7839b9deb71934169cc975451f8d76f834499b281eb6cd69c071f,
0x28cd5b5220315f32a404bf919a9cd01a3082f5cf1ed6e92dd79a323bfc62df5,
0xdb2421285ea7f5979122022c62e752e1b15c491cca462b4e71b7bb0661990cb,
0x200d26a5d00a2c154aa75036fc4e24885f7d8e3ecdfa19beb7cc15767eb2de8b,
0x1a1c643b8d0510676c8afea7a4c4af98432406731046ca882a497b29a7c61777,
0x1e80c6db7632f6d64766cce10b56d0762622eba0de31b6271e95ac94cec6ef32,
0x16c8f7d85e411d0f9ba685f0fb815c6ff517ab5463c74bb9984dfdeab8299477,
0x20830e9933ab9c82b1d99369207399eb347fecd8d8ba430b5925038cc3295055,
0x256a4d8167c0f602f9f3b663dbde4a7cd3d47353587b017f4f03627650b813ff,
0x11139f7a6884d0c2efc32997248db307bbc0cba48037fc518478e9634fcc745e
]
]".
(** constants.go:6071-6362 *)
Definition txtP_16 : string := "
[
[
0x2b6fd7bc3a3b595c206c43daac752b765a12255c37ab51ae183933737a8b8099,
0x214e865e2eabdb9fe5d563a141ce18bb254029e0e04e59c2fecb0850b5ff572f,
0x1e0e35883b0f1794db023f80354a83951383b62282dab4129db1d19e605c316e,
0x5c51080a74b8d28b50b14228c6a6de8ad5397cb9a4b9c6cf86bb807cad76074,
0x244e0857b01e7d7aa0eb2ef334fde51f16a2411abfec2c3beb6c62f7a7036217,
0x2a04852a90b74143f3808a150e9f1371e0177a1b6e72cbcb0fb8f1ddce8a8d02,
0x305a319725a0b7bf3def3f71517cc2bbae386b651550fe9405cec98dee21b1d6,
0xd92a7b009466985fef388ca3d70c7e2c0c2670d2260df83659d776002843107,
0x2a67eefc0930f82c8bc66ffad5ac09c107407814131cd645bc18cda6fff4f52e,
0x99674734918ce9329409e50f2e9041bd072f9d827737de601f09c7ade19d35,
0x449112125b3f10a53b2c465f2bf1183f03c13825e76d40af75da04b8137780e,
0x2c1ee387a8c15e7dbe92032a242801d1f7b411a7e5a36bfc4fa2749a22cacca,
0x1d687a4e31c6b3c91e67dc9d9dd9c47493c839b5e13ca1a9310e6ba011421cf7,
0x1dc79a5d9de443db444de0f08ac67be4826d018fd86139ee9eea781f4df48939,
0x2d5cf8172c587c0513f26105419f56319763c5cb42cf9ecb5e27d9a88c5d16c9,
0x25bacabe48b3f030c806aa879f25241fbbb17534d686bda8f5d478662b2a5ab5
],
[
0x69b1779dec3eaded3f07d0c3e6cecd6cffe78d747faedad9c90665aa2d92cb3,
0x29fb24fcfdda928bc18f54d5594a0c23bb822c277fe2bb999e04a37830c7595b,
0xc05c2d8ee022c59521bd441aa15fa2ddf43e6ef9811b10fe9640ee5e888c388,
0x122ca048d7c6d4b9053b59ab67650d10d22515f1365b2267c086dc7a168de657,
0x2fbb74d7dd4ab190e6244236580314c820bbfe34045f43ce14d1ec0049afa187,
0x2cadba86ff66600cf28005f0ac4870914118c62e110e3ae0513dedf3bd846d29,
0x30d436b101fcfc29d67d7fc4473218360f1a52bb7316c4a080a55c0d01a709e,
0x1041a8891a37452dae7c58396d225a87ef1985f94485bc3bb94588dd00132b2b,
0x20e8656cb5d68cf5f5aabd0cbc2384b00cd1b65ea77b1c0495a65f3270e4d881,
0x17107096614bacedf147ec8ba8ddbff1d99d5ec24df5495279a720144ad00dd2,
0x2615060f9b8b7972aad3c06f80079700edc591d0e701ac424203a6a7beb5931f,
0x1406d86f9f6ed52732899488e062f293c681767645a636d8f078dd40672e632f,
0x47dbe55f778c815cd8c79dac7d59526dc76570fef2224a93640c98770c056cf,
0x2dcdb0a971c5aa120c3d873cbd072083a649e903145e00829aa8202ef09be93b,
0x2bf712452a11b06765a0d8c7f0af790527a665863294a32cfa3d762a5aca3b0c,
0x12a68ac33549f6902b128cb376c2f52cff07f1279106386b26fde8fc49de31eb
],
[
0x1fa4effc83498d19aaa598b7771f88a0554dddda89d32dcf8a6f4cf776d13b99,
0x19b1577a9e5fe67f71e733732ff6ba035dbb18d129f701a566068c4aad32165f,
0x82f3674a3860d8034eee2f705933c2ebf23a5ebc7a3d77c46c9279df8930298,
0x1011963b5e7be95fbbfa2848d56da05d6229a3f0292c50760027cfb98577a2fb,
0x2ab86635f447d66ea5ef5e5339031197ae8e86b7350744069280de59d7256486,
0x14fc3fe2445bef8547b023a1ced3ba9e137e16fb0e3645dec813cdd7e584ebc8,
0x136afe9a53acd5e1d68cfc75c5630d39701cae3744ad5aa2aa34f735ea830703,
0x18bef702cd3178eb4ba589b84783071cef268ed6828f70c960e379508b9ff1e2,
0x2c5c474a63c172ea6d6a1fa8be92e4bc6891e74e87c5a65c42b61aa42a9aae4e,
0x27e3943ac99174b2829fd8ffab17b16837fdb88a0c6060e20c3e5c72fb420f8,
0x288a44d1afb6a92a5c7dc766d4cde4874b0f49cc3e798fc25292cd13cfc4ebda,
0x2d255d4f28b56db356773293cbca39f6f9c06bc4cb5275839555db772a969ba6,
0x262650e9b1667b31877c8d79a5816cae80e222df97e48b574ba91e6cb509e931,
0x22bf34fc02aa2e215c993994c7cff2626dcb7212975f7ffcf11cd90b07808e70,
0x14078ef63c2a106c8895143763824ffec7a868e80b89ad6aea82263b298132ed,
0x1d16de8069581b62949f3e5bfc1188e21cbdf5d67a5bd403927da3a66f49c6b5
],
[
0x1676f5c07417ab54c37ec8ae1a8314bdeeb09964769881592043dffcb26bf41,
0x286415acbcc8aba3e5b854a6a357f300ba4037eb8b7c5ef6bbac868d1b4a5635,
0x1aef1d337ca51ca5d2c5c116a275a81a21f90d89834bd1af61b3aa6bed65c7c0,
0x17e864b0c0ebadbd2fd4f75177b9e7fd801bf3c066464070c6527f096b0b4e9,
0x2587c2ffb837fcc5be1b5a0d520f0f2145000b6797a9a5205ae30240af69c7a3,
0x2ad5b37b82f9ac35848de9a7b0bed4262b3074c8047d8a4736959a21946f7db2,
0xa32e49eccc90d7135c8c66fbb1953bed9da04400221cc606416f0db0b06930d,
0x24e2c86170a5b4a8c95066d5f553eaaede655dba90c32e485adb53c3db9f65df,
0x2e90955a65c11aa740e8592c94a983b542bf95bedd9bc24673647687c57a419b,
0x11ced1dc351f0b67b8de31d678da740e5a0c4bb1e9adb04b119e8de79e908283,
0x9de8b7bde7c2aa28539fc3f31b1f28538a766c53ca6e92a1639bf1706369482,
0x12550c43d8d9b152c039868ca4c52f074e02f31e1834978c8b554daf43632d88,
0x40dfc65f3133acc65a961dfc4b365d21d41b9e82cd7d65aa2a3238a3ac5b92d,
0x12f7124beb62cae35c093ed96975ab5dfc8e00f2668c6ddba351f458127e96a6,
0x530ae305c7c8a9ce61943baa1bfc0b2e16199a994469f41aec17cdbd7d074a5,
0x243efe17e4617bc0c20ecb5f9bd76f48a8dd796fa1058366f55826b80aa69794
],
[
0x1f4e7bbc8d42779e58aa07bf54ff324b814fe687b4c8eb81b9b7e74448ee27ff,
0x238f0b87f232229a5c7489e1c7edc9d319f816c21e6fe403ff65c60c1ca4b178,
0x1df906bd755c6a965e2ecd7d32768ae2fd8c522dd0ddcbb002389e90f5c6a707,
0x2da47d7b5389318990e3d6eb9f9e93eb7404439b362a0d84da24d8c715fa8bf1,
0x17c623def2d2610588b3c5dd236ac31026a16354f29b2f8a1b0955c391701f5a,
0x1c6c37b8caf25198a4a9cc93c559e73b7c90ca6df6ac721a2f52cee03f57221b,
0x27feaf5bb57db47ec317018969e6e767f48d768fb138698ceb4aad474f10fb3,
0x4e392117390c777ae93ee29db53979f4f0e168595d9dc5fec4eed18ea0e33c8,
0xa1bf9ddee072347f46524461f66c65582c5533be183c39ebc5325c2e111eb55,
0x23382c75620eda77c18e3d166fee7b74e30202ae8309890010849e1a79cb90db,
0x234c33dc7c164b187746919301403d75c58237965627738d9f48d393a44829af,
0x216ffb6e7e5316ddb852406f11331c24f717439f27d57ca15de065958ea44462,
0x21269800c6b53df048610f35d1b344e03a0fe15f0a5b21b73c799a48e4d0721f,
0x86ec72230cd5fc6c7842cd5eb4fd6b75c3051a915deaaeb61e9b22780579a70,
0x2f54161c4ccd936ae2c3edc204637dc114d4d3d6d98bd9b6d8bdf603bd4b7e72,
0xec71181ac2bd7226495ff60adb20a3c9a7636dd9faf14db5335d8c4c1ba3a06
],
[
0xf6b18c98fc89fbfa99a04c8c96ae5db35c296479f484b680df905d4cbd1dfa9,
0x12567e67abc9b35af4ffb381ed3acf244a2f9019839f5f8d2f0b442f51be88,
0x178391cf8f91a1e3b00f545a3a4a5331feafd2a0d10d9027c56954c8a3f8ebc6,
0x2abf38b2c05989402c75ec5263e3ac75bdbe9af0c1eb92883d5cda564ecbdc37,
0x2a2c5e5b24751e4a10e893ec2f7ab96f83a970cdf3a543b20a48357cc7ec8570,
0xdf7d4b832373582fd4fbcdf7f3c49749f6efb59fd99f4e8fbedbc8190a0d8de,
0x72011cfb8afcbd8b431269dd5d74aa99e795c6628dc1dcf6c2d8db003bfb436,
0x2e369b2dc96609f8c17a592f2ce063683d148204c2912b0e53a70a3c46bfa9b5,
0x59b27028b4f0949345ed48b3e799d1081350784e0042c994243297744e2e226,
0x222dddba5c72cc2d12f0aa37e940a09424f6e3d679cf725bd059b4182393c08d,
0x1d4f2427689a1dc5f1d7c68311ce5b0a56a961b3d42a746f356dd81fa147680b,
0x2b29f8fb4f37691d3981e3fc495ee58c25ecd758d6e24c3f41e5c56221a64fd4,
0x267bb17bba0da1b457e2fc71493f7d7b9da4ef5d13a62e525defa3d080b766bf,
0x2e6530de833c3b1d1f5bda0c6f6a244ad8288750865136dc22bb752c8e044039,
0x1f0b90c52358a8a14da112639c7d2ea2ff1df537b41227f4d3c9ebf7014c75e6,
0xd9acd7178242914b81219b9a60ef7a0d6dd0fb571609e4335f8d419ff982d12
],
[
0xe6cd10883e1e11c6c191d36329f30eb0045af06c2d86d0c439f5c1f4fef54b,
0x2bbfad45e5a92d2fccecc514648ba944d35abca3f6570958eda96ab2e03d8095,
0x1f8bbb7ab0780d5bf4070ddbd1b99eecde357757f3773ce6a8a33cb6d3d6060a,
0x2578863a750b236e5975de83fceb91727b4f588c453a94e40327a18394e835ea,
0x28284f2eb4ef38ef729f8637df230532e3a410186dbbe5ae5497c69a7cafac78,
0x1c535fdc7111ed734def9074724899bea8525c2571335159af33af57310a8db4,
0x29037a8126d3d81fcaadaff1995a15f9e5113b205c2f7c2d0bc0361f06a9678d,
0x1cc53180a2b9cfb4978339d086ed54c748a5f77190e30dc2879a76a107553e6,
0x2fd6d01024cdac4f279edd9fb5219b414815163b384f502b615537e03cff2b25,
0x205885190c6d00c1420074e1a4a3163c382f7193754fa5f87ddb98a393d032f0,
0x23cf89940b6418fdbed6f84bbfe0c5f850a9ba88c41e998554a4a4123d0ae5e9,
0x968d36ff2a38e6aeca306fe28458719e69ba1b0fc76bb561fed0f82255cba8,
0x2c9814c96a72fb32442dbda9249a412f98a23304a86ba9848567c5b0754554d,
0xc11ab9629bc935469b9fdb33f48f22db895f5dd5e182575b2cbbb221105fc69,
0x2b98eb64b8642bf4f5291ffce416102088b471aac3d2f80da585b5fe1f245886,
0x2ba9f7efe0d61c8460085cdca6c1bb78aa7bc086533f20f301e010d5099ee790
],
[
0x425a9641fb01558bc7170a2ffc24eb6a514198b296a1629cc284d983bca8757,
0xd964da26287f09bc190e8235411bb9bc9068003fa6d6ee03229dde65db07fcf,
0x289c0cb7f84d62638c2a2f37f10f30a58d8bd8b4c5bd8f5a3ca448e9c668f615,
0x6622bf28a5fcb361e0b7bdfd7fa08717b51640d05d1f6f6ba94b50d26ddcab6,
0x2aca8f7acb59233bc4d4df65b9c6f30479e9a72f5e6821860b39ba9dc4d03f82,
0x1330fe288bcb4ad27de36ef48f063baa8ab30be65940592fd97623c7faed4e50,
0x9efcc692545703bcbeb641ece624880f73a10c0d2c2e6132f9624eb5f41b1b6,
0x2ae8d813634a87b031bb08573bdf237ab3701215b77ee9a4e6a2c01c1c1d4ffc,
0xc2b9bb36e8ab693866b2885bd4482ed5c89f069b3e6445655d70f4d6687f8c0,
0x1a606372725698e7d7f3a7280617fd86de9acaf98bbd8971d8ee53932c2eb6a3,
0xa6632613bfca8afc8939b33e4912ddf18b034be621106ad695ebd5065afe00c,
0x2479769cd60838cc140a649e8937be28ac92c71980f149caaaf0100d1f102374,
0x1f925ba0001429fe493f48ea404a8ed283ab2cc2f3275ecfe320afe90426f462,
0x1231fe074b771ac643d6e188f5732c209c71b768739b22447e6b5dcf499b4887,
0xeda204f434a347cbc55ef698aefb23df064c57fcd4cd4cdd810e05ece651535,
0x33bf863141b2b9aea2e59cf6c4faf11466700aa5c383af451d403c9c53160bd
],
[
0x397a7d7434b0aa941348de45aec442cd5cad2c398884950e8233c58dd50335,
0x1495e990865f559df4c7bd6f21272b8106e2c91cbb1a9e2089922c62b2a76ca7,
0x125496878120d9ff89d702f58154ba82158e818db90e3d12d6a08c5543536368,
0xf8ba5444de18d199aabbc5442c1d7c01cafafc79fe095da31928d776bf984,
0x1eeaa31dabd6b6a9efa74e4315917d902b02760a04b04eedb57e261fa2c6632a,
0x3776a7d69106118a4d22f86060ea7db0c9c8f3ce3ccd6c88ada43ee175cc811,
0xcef77234c42547957e950e45ad3b723735c011ef47ceee8ba422bd16759be2,
0x1cebeac557d2337e4687501f9f71fad7ecb14ad09550b52417ac33c2e8bca21,
0x6521b700ca47f222ea2e280f3193df67e1a5966b8cebffb01890aa3a87bb328,
0x100a85e6da4a0b92a81f1512710c889a29c8ed3e0695bc285a71ca5617705fbf,
0x1a6288255e7a54d4397ca40b3be72c0469bc489e66f916c1a90476816a2f791c,
0x33125b9cf766513a8e82a0d04374ff181bfa818f67ac1c7dd4298cf32b85e76,
0xf7e82720135b35277fc54ebdd88a026af545b745fc20449b7068c6865eac1fd,
0xa9f28e621172d911bffad3b5ea4b73a49a959de5c86e8ac52745d558a6f588,
0x18a93b5dbdde2e99c234253d4a49348312e58f033e87d4446945727da833c54,
0x2237324de68d18d407db3fce2a401e8af47ea8c5bc09d862d12b8dbfd3af5f3b
],
[
0x1d66f208fc04411a1385c22e203dc08f0bac2f7cd9dfaccdec20d3b93252ad04,
0x1014b540da45955bbe759dfc9ec4bdf32a99d56cd2742d269ff8691d915cf247,
0x1720174606224668a7067c3e8c53b1ee68349144af6d6972d38c90bfa6bca639,
0x6693893b45a40bc7366925fe7978bb80fbd5b9a3ea27c9dcb456b2b04670c4f,
0x249c8751e7443e96c6e3b6b78d7f288e8a00c05f12597c984f8f0eb3f9c0d4f6,
0x19afe6d81031fe1cbdff2b24eb7d691a50bd6bd8da98ef658d75171480cd664c,
0x2034957e3fc373e94d77e0a050a8a84ba49095ffc6eb3a7776dd86940d90f01d,
0x1d65f2f3574c1fe006df2d50fed257bb935f902970c7aae131a41f2de4b48bb7,
0x1563bb61629e83922438cf0723716cd4daed36ae948e74c5c85dbb7e9893d645,
0x2f10b78f744104a54a8149200cae59e443e74edab1cc3cbc2d8c170ccf2f7889,
0x7396d51d19d94cb34b304ac606b54399e89273abb22ff7bb6b433e472ce1e8e,
0x1cbb8fa4be4e9fdf0ec9ea67df8df2c1b796291e75db4f427c843216fe48834a,
0x14e3a6920a412da81d917e7b9d98bba849cc165e406fb3c43ac421f9ade0c228,
0x2a8e486afaa01aa8eeda571541d2199b55c8f5f730ca5c3879f246c227809c9c,
0x7abc38167a01b6bc5831587de4d790de43e68e6ca9eabcb64b8af6895ad968,
0x1e825483a9f85081590c0ba40059fea7861719e2b7da11323437313b77b6a8d
],
[
0xec1ed3ae3beac4ddd1fdb17b9c7c648e7ec81885a07a5bcbd967e6a3676f356,
0x1d8385e9787d1456bda399aa4d7f5c643cfaf25d6ed60e1be9ae8b98fbede91d,
0x2f574b85296045a2b1328f482a3ec674793ea300e0817720e6912d467df067a5,
0x291fb174e5ee77c060615a7f5a737a57d56e2060844aedd0aa86329b9b361496,
0x2362c38ea538ee898a12c6458c399d2870bdd8826307d56f03bb28e0e30d09f,
0x231713410ae9a8da08284c29b8b975410dab6f84f56475da37711345e68d5e2d,
0x2ef69fc1a737db3abc895f656811e59e7d873355b2e1342aa5134d8bf702ac90,
0xefb60fb18584fc86d88ee569da71046f765526b11f6c20099a6dcdfeebc4f70,
0xb044ec6d148637a47f917944f81e9c8b83b0c0c5ca1bd3462a4e0daa7703dac,
0x202678e431648172713afaabe2c8ea148061205c639f639b5e45d498be1550d7,
0x2a1e1954e5b010440c1679719e5a0db27c0aa7957b755ecf2c9b3571a8aa0a0d,
0x154d9e7b0dc8fa67c82016fc687836f61284431fc9d681405edfb38ccf28a6fc,
0x2a704d1d93253cb1096070fbf26d4df2baf4d92057d87596cadd063176267917,
0x2a24d4dfd6e9d6435e4ca1994ca11ad7adba2924b6ab7cf7c6a9ef5e7ef9ae21,
0x1688b9a9cbc3a63df3a2a35c6923aa0949816cb57fefa6e95d7627b7663a6317,
0x1d1caa8449da721f7c949ccdc38ec8c6134d97d7bbcdf58fa3c471c51a672ac
],
[
0xb3e601e36a5d82e0214362c8419474dc1cc2c0ed8126534d69a3f790b27c603,
0xe6b936ecb8a59274624533d03746cd5d266e6c5490d3c95ada22f4a22e80e32,
0xd56cdd730e1401d9d7f93da88d6f3bfb8eb1fba440c552b078bb38a7cba55b2,
0x12c0b93d829ff5b9641d9f6f2ddb4f92c7a7b147b794139bce98ad87d680d717,
0x2de07475e19762eb5baccae3e88aa1493d35d276c4d05c670697b43824a41640,
0x2ea094a22ee4755e5df8352b2ac671e231c24785db343b9145f9e44297b361ac,
0x2ab4682e32feba55370b3a477ad83f30c88db387bb20c6a9b2e567f5d60a4a73,
0x1a70ee4fd1e45c498e771e9d0210dd14145cc2740c3607e044e3c68b6a6017d4,
0x20a815e19a6198e3a2f8a8bc2631c552521182f63e125477cf765a27707035a1,
0x266fe05c631b74ae1cceb24143a96e0e9fff59304f04fedcf4db3da13508578,
0x190dd58a88fdd887a0ca830681aca5949ea89050fab84b66297d7d14dcb91a74,
0x1ae686eecd7623655c55154aa8c5c82136eb56020fb8d1199aff5c8bc11eb0c0,
0x20ad4678ee812d96e544ff8e5e65d4fb7bf15cc6a524e6f19de6af983c997b03,
0x2caf670c84f98b68d05f4ee672a1388306376e7886e30bd2b163bfa7fc15b443,
0x1a336a86dd0b3325933238a53bf68f21ff35e9569fef12cbb61d8ab9c1f50ae6,
0xe5fc7c1d17854a0673479d4589da85e6e61f48cc950b3cc531564ce5fca874f
],
[
0x163cb4e3a5ec92e57b25b095a3aaa8cfdc4ce59267718cc6090a07e14af10b0d,
0x19853b1669534b82fee656f037c33af733bed785ab726b0825dee79b629b9706,
0x1b164a2238c5e107696834ac58de1b21e49a366ff6307159dd461a3dd40c2f53,
0x2923c2a5464dc991733e46124db74c405e32b3fd9dfb2acb7d889b19a340ce9c,
0x2fa1a6b0c6b0e9d686ad60801c72955c1ac256d23c545152efa81dca6fe1480e,
0x27cf8750197630022efad9203e63aea2f195315a1d065a36894a5bed32bc8941,
0x23f9c83f88ce7c78d0c6cb8059fb86c2110c7c266778ba8169b665dafd9de184,
0x1d3ce51d11885aacc9a7a3b9fd2813e7ed602b33d3339fbd91bb869c6881ad73,
0x293f18aa77d8372bc9ca53668a9870de638a706734631c21edaddb20c4a6b85e,
0x197b9d069564454b7f26166ee1614896f153ed11f6215f06951b834c4da38045,
0x131c5cce643d2b8d9d294b32abf2c9010ec622bad6f1181e4dadba9545684bf3,
0x2556b61b7729a527f2c01544abc585ad6da9c92b3df9121f37bb0fd0c03d2cd1,
0x5a0d89380a2a2a14acb860c3bf32ab6b3c973d84b0d61a308ca73257c19cdb1,
0x24785c81f63404b46126436afb27fd2340122e9a98a58c467ff14abb5a90241e,
0x9fdc6f6ceaf2566ee3a618ac4d77e86327ef278b968013e33f0813190472b31,
0x2afc8316618c153350f4ba229e3382245c1399b2ee4aca25580229fc237f94e
],
[
0x2dca90f3e5a15b29895f48d7a1290d7a33646b89620dd0a8ccde3aa3a51d41cb,
0x1ac11195f74d7fde657d093a313171f0bc3cfe2fb965e5c352900faac25305e5,
0x28fae6efd55d9648b0d9dd3b8c6e928c11a5941dd6ec235a9014c6dd35ad315a,
0x12e496bb2680b7d14ebabfb8797e9c6bbac68a40c8b8fd65b5dfb18e38c99680,
0x190489ef4eb4182eca51332b895875d6ccb7dd060aa364c1d289e2e1a7741119,
0x15776583d7d261c6e8b338c3b3fa4323abde66ed0f477d0355119c9ff5482eb8,
0x1370c01789f712284290ef1cffc5d33288fb504c5763d2801852b960ab98afe0,
0x786ebb71e920bd16e3ddfdeb748e040b7f1b1a0f04967f55210bae2f76bccf2,
0x15d4d2c713cf58f480500c6e5916f52b6ea1ac070771b0c83a6fa17cf6c9b904,
0xfab2ea8e500aed64630a51f8bf9ebf040073e23a3cf189638656d6dd1af86bb,
0x1338a1a447a9df2fde50aa09745ed3bf09e32e4ff2caea1b3b736a666c715014,
0x59df1b1e661d317d01a513fc7dfbbd80c9192d33adc60602b0b0b9d45e08535,
0x2f840b4ac5c9227c0a648693878cf37e955a037877bd5e5ccbd8efcfa38466c5,
0x844b5753fd61108fd7fb8a707e770af891ec99da9d5df68b013a3a87599ff7e,
0x2049ee37129926ecd6ff3a08e0632a007ccaadafd0d402a409561a2ce095b52,
0x1f6570fb39247442fc03a5139944567ea46f6f534a0214b611fd3b2d3b878369
],
[
0x2c78ee5ea16d38f0beb9dc0733c4bb1893cb33ff671b737a1122d64f729cff22,
0x350e8d2eed84802dfd14d7878b0b77cd9077778c41ff7733d2ce688961a4b30,
0x2aee7c9d86aeb8744b9d3bd7cec5c292e1c65cb633de0afc101e9d6fd2a36d5,
0x16ba6796332fb56050e3fc4111f320cc05255c292f34db71e816440fcc452baf,
0x14ae46529aa1f2b79da80878382a86338323f6a293adbd91cd58270513f4b693,
0xcf33eddfc73e29bbd785035283f6e805133bf1e34bb9e3cc2f915e06b272e27,
0x28f704162c3bd521df847d4a8a4f75439e668ef7816a91103158619fd52e5ee,
0x1c207d7a9081da93b7375312e4ea754523d9198c501f65638f5af885708d23ae,
0x1cc29ba8eed43aa2f71831b62eca71c1a46ab68007777679aaa8d6121faa5b55,
0xb39596ec65e453830650f8dd87d0fe8abc96cb59636252e27797920e06b6a2,
0x162ceb46008b073da8c811a25a68b56da01182fb893ae1c6b03d310ac8944fb5,
0x1f2526ae9adfccd223ab57e9de7e50f5d3ee83284a8d62a5e40148f4dceafab8,
0x28ff311d4a44251feee051511cac4832e177edc8a03053e133d206e9f6704f9a,
0x1c362078a104c738bf6c5fda0edf9ce2cac3b21eb2779e734d14d7276a8e5267,
0x4458b88b13af0f9d45c2b43df72abe53d6e9b56fafb1d0c15cd45a13d33b05e,
0x23897eb294a5fa4f300110fb96ec236f8c0e049f29da5078d1224337e256e703
],
[
0x2af324ec4f9e7786dcf00439c75a294bff753e3292bbf62e66471fa730f19c79,
0x11930ca8a8841441dd799a0e3e78e1a949f05bf99603b382ff771021770f92d3,
0x1bd210b6e6c2074d94d9f310d6906e81890175e675cc8dd659c287438a08cc4a,
0x14bb891ffdff2ba6b222332764a72059404e581f328265eafce4faee0637c6cf,
0xfa8399ba775a9e98ea3fc29231e1ae7177dd8f63c616ed4f4819f0db982aae3,
0x17749627adaf3ea1f31f149cb0fdb032b9c2f17c262aefa35ec1d516e577e6d3,
0x17a14cbbc6c3e70e50145daab58ccda20416fa7a0b0564056e0366be14d9754a,
0x1ff273747279cce54284fbfbb61bbd04f403afba107507f76812a645fa9fb774,
0x20edba75b3695a0f934c68c90d4ef19ccf1d8b1e3042d32362b5238b10deb274,
0x26852fe3fdad04b05eaab62ab7fe15fcfa55e0340534e28e2d8a3d8181b1c859,
0xbb7167ac0c34acc1d3e0b83212f50e3360eb4e967004da532861a8bb527ab66,
0x957401bb640d15d04d93e3ce3756b5f06f9869e51076b13d42a53be28a36b5a,
0x4d4b72c6c7a5922a3c9ab0b0154d7b12c45e50f8a237a930802e4c64cc7163c,
0x38fd3c972d8ed7705ffbf9d462381628ab654b76aedf4f4bb29a2fc6c922cbc,
0x98ff2fb46bfa9b48439294ce85ad25768cde5510c85175e073f1414a65e4ea0,
0xc872f10e24c0b992944862abd52152c0faa0aa508afb99a6e9a3d2d363a5c1e
]
]".
(** constants.go:6363-6689 *)
Definition txtP_17 : string := "
[
[
0x196b76cefdcc7f6a54c71d40114a0bb82694c936f1573ac7ac1ea3fcce1fe938,
0x197fc9fb21309218eb702b935044146cd33407ed33291cc599340b271c399668,
0xe8ab972df74eec491e4b8c416b4a97c3fe65a38d4e76093ebed05ff3e7d750f,
0x17af7102238531c988dc665323d3e3348ca13eff7d006be181cfca573bd77e79,
0x1b0b5e35d65981e836663ab49379580a659e1dda0d8c49c189b8078bcfdd3f0d,
0x1aa303c6d0552d6fa013df27f7f4aa907d10da9cb9e0881ef2db7ec1a74abbf5,
0xf4eea81fe11aa323228b430a2f9021e2639d66596b3821e131cd8fd5fafa0a7,
0x1b47097a86346051d2d42d6810ee8f3fa3b992b90c009040095fe8357b6be24f,
0x77cdf97e2049e1764e7169aa4ec11ed314badde9e84218bcff380ffebe45382,
0xb4d6879a54ebc4b74422f70789c1b7a47694f6bc0f88624ad0141721a89f73b,
0x14ba91f29fb5987a1d3dcab55e35edd10de3acf4199d877b5c6623b5a6ef8d9b,
0x1fabc01bf1091b88001e832b7ecaee26e5eb867f85b8f1c083832b1db57537a0,
0xb4d4c2920ec03187d1ff531b4cc1b879c7321315d7aeac09b53bad9439ec93,
0x2191792ed6ddd6c3ea8ae009cfd1174fb9efc01482488c101502e34db953815f,
0x162b05a1204ae66ca80d0a89e10426ee4d757f9b34ccf08c1aac697c55245980,
0x251575500ce3526f4b190061361eb2576591f9ef2f0a7ff9a7005efc3c71263c,
0x4384592e42ace8c8014f728704ad93695e50a16c5199d5815e00ce818ed8081
],
[
0x1440dc2578f44694d18c25f892d98c23cfdb87a772200020e897823d4bc84d3b,
0x2ff15351b14d1b852edfd01a8ef108ab001a10c8d66e887daf1817a315289259,
0x2fdcdec10d3354953fa9ca8769a3799d001626bb715f19a97e772f2ba1abc421,
0x146deec0773f075175a208469afb87199d1b063c994b98125db22e85844fb455,
0x20f00881fb533be89b9246780df72a26ecb103c554b9b6fb17844fddccb235f7,
0xb419e6fc9348d7c69dc15b49fa148232740635cf2e39904cb5bf7e4e1c85292,
0xc6321d9f04dfd91a4fc850ab7d1f7fa66de38d67faac26599ac62c80784319,
0x12784ae3aa761f38e035e7ee5f21242e28df65235da8599d80a93646dfdcbe9,
0x1e09ddd18fdc3c46c7b2aaf6cfd942c62720cd1630b63dca72b42b4a6409c5a2,
0x2a71a3a65e49942b825245aa127bac8dde2a6fca570c8365d3251b146dcd078c,
0x197d178b0f91d12bfaef18f402635554efba7da59bf45f6daaf3eeba444c3bc1,
0xcf6927b15b1b9df1656581cabd0909b7ee2f1dca0258e183b07b030b5db3320,
0x284151191b230312298ca0d1cc6fbf122b435f7e8de25d9d1927322b0b5a84f7,
0xcb8f5333099700c6d37c787c67bf7fa6ad5e35c32fc1a539a8df57b910257ca,
0x15d5a61db8e06697df1da0f06916eb32d90e86ddc53d177abbc7ccc86f14188,
0x2a9b60e4ae169f3d5fcb4bdd705d89e0a9361e239bc3417c30a42ce645e76d6b,
0x883b0b606695b0c96a67ccf221ab0169eba895363e66ca88425ce3700c0e7d4
],
[
0x23aeeb0c6499b84bfc32ae3c42df9728798fd2ef774f1518b870bc57d1385900,
0x101e7e35808991e8cdb0627796f331b89f2646cf0263924aa6003460b351a940,
0x2bb568a99f55bea84bbf76dbf0f54d5f1331ffa1f62d686f3709a56662e51931,
0xceed1b75b2f6ef1438b751e8ad4dea24f1a20f1d9a23589772db49baf9932f5,
0x2af501312e1b653155ec7f8e0e59649b2d078f5ce5121be83fa716e1b5dab2be,
0x152fdbabfe1a0ded6e2ba5497e140ecd1dbc9fa8df6705237fc8c764317ac751,
0xdf66c437cbccd268bdc448cbb706f4b179ba223b6bb87a921094257baf2b69d,
0x15e5521c580b9faa337d9ba06514ac965c373a2e604305b8efb0aad802e72a21,
0x9a09a903ce4f69ab99dd47c16087feca6fc2126ebc4cfd8def7a0253303f866,
0x2bb52dc2028e9887b2a82271ac46f7800dd147e706370ee5edb35b9550cf71b2,
0x9bf3d01f97e22646505f76fdd396b026bc8bcba0e0522ed2ba3079d301fdd88,
0x26b72c368b0bd0103cb7dcca08e68b4446ee788ef6114f6ba899202f1f19b5b1,
0x2bcbae8d5471d562e885b4b185b56ae0fe11ca5bf5461a1e0a41205568525f43,
0x805d6862cafcf5030ab30262a01f2c65b2b7312ac9279baed50c177516bd0dd,
0x2b8b1aa994b54ee5617766dc812d15d3cabf187d8db4ab8da85130f73f01e746,
0x1fed5b75b01e9f4af01ebd30a6f355e8b2cd88f19e49892a19403a895fcf284d,
0x17ee0034bef77cbb115fdd75be9880008af568ed633eb7b2abdf8361c4357500
],
[
0x1ed9d3e9276acb7b4dae53eba148806fd9bb07b2dd06187212fab7dcbe63d72c,
0x2c05638ae2f83e73ac9b1bac220509e30ff5757342ccad17261a4c30e3bc634b,
0xf1fa08e424e4691c66bf0a524b81e886da234ba5bbf78cc168c8a13353c9654,
0x1ee32a96f8d3e8fde8ffba0fcd72859847861b8143052e212bb56b103f6f742d,
0x20192d8adf841e5dc110994238180267954de29c8953738ae196447acb182a7a,
0x2419a609a380157d9f6c6e64ae2cfb6e4b39e0d6ec0661b546c1552a620f19c8,
0x3ce58f147c681728f2a2af586144d470e2231e80161f97200b7aa6d624b8bf9,
0x12aba963e415f9bbc95c5f1ca8affd59b6c6b03fcccdccb417a9d89a4eebfb32,
0x167f26eedae299f0e56157c8c7fdda1ecb48f90e553ecdbd4ef35b92ef9f39f9,
0x486a139560dd70e9054321196ddb973e7db09350cdacde3c1c7817fd2b8a46d,
0x1e4a632c34dad41873c541c5caeda02bf58f2127994bca0b0780bceae409256d,
0xa471e606e256e387d5e44d8de55dcdd833b364baf00a694b52e3c10f21f814c,
0xc52f1224066c212a3667bb2beeda181ea00294c5aab9348e5a71d696c8fcd20,
0x1b2e51bf0afc16188b7ec633248eacbdc550f592c742edc91b204d49dfac42a1,
0x25da91e9be50e3762edb77a90706df802461c374a7b90fb2ac018930f3b23518,
0x29db9bd9f3940384f177d7634721451ddd0c6a868fd047161c2358e9c305ad24,
0x7062de34f5c74ad5822948fb7c476255fd03a13d9d8781262712946db22156
],
[
0x2ff57f3f7e95b03411db790a86647467581197124d217520ef2e6332a5b35185,
0x27ca7b8c33207e75a42cba1237e0c568d3b31f475424d23a9fd0ba6ef188df9c,
0x1b6aeec49e5936a23d2182de5ca78ca56d4ffe8589d3e77d07a34692a7c5b44c,
0x5e94c1b81bbe16e77c7fd2db254949046cb85834c34e0d8986bff72ed22f6f0,
0x24a01b8801b2865c3a3d20b6f31df95350f5caa9ea158b3ac240ceb81c8f6cda,
0x18c647eabc6fb45dec61bdf9007f83863fb6b7827b23437e10e49baf8e835ca5,
0x523cbdc5787c220da27bcd517d57bf3b31cff9e4e2e97299d44d9f838d96465,
0x1799989ebc4fbcb84e487b4e42f0e4500c309c2d90e740d03f8f9bceda208616,
0x254d90f21c923e30fcb471688f64a6115f0f4340b744c5d732a077f5fd6b46aa,
0x10d8f1c90a94db10a7b730d8c21c69e793cc985e1ef2c62b8815e65c5fa91962,
0x1032ccd20d4ed4502df7faae0b2d9bf2c5368304a24611597d7651733053ce46,
0x39bed2152c1cc38fd8a0addd226c2b5d53097f83d826f7e9b9a3556a32c8001,
0x261d68c368aeeefc167d6b3e2d22be484231b5b800b51394133c7baeef2f879a,
0x28893305254197bef603078e333db361dec1a7775813bd95d39e386729cc665,
0x2f570c80d99ea49bbd76c199e961db6bf59ba6e0a47683923716f9e10e913221,
0x2318f3a1f9ef5c6326960014e622db56d8adfc885e3d0bc2d06e86ec07b156c4,
0x7946f795fb6251bbe041138607f0ee6e1243dca71d592cad53f634dffd91ccf
],
[
0x15faefbf8584a38969b4a719ffe5f02c2191a8cceda0b775162203d30b80208b,
0x1dd8c52fbcd6e06ceddbc122ffcc656e4c28ae2e88b94da79f3a276bf5fe2acf,
0x2915408b3b7c2cf127999ef3a84a0a5c2de70e75bcb06ebac67c73ad36cd7153,
0x2e655f7e6277f2147665a414632eb3a418acd90f6a29748e4249f6713d54007e,
0xe0dedcb898406ec36e1ad2e3992b99c8b457ccaba2105b4436ba840e89bf0d0,
0x270a85dcfc9c8f202cdca355246fd989551495ec57f8b6533342e3af8a1e6d85,
0x494b4c62731baf8f3338f2cc0dd934f82606e768f563a755cc501504a50a9c6,
0x17061fdaa032097e06c003d9d719d29df4c30109d6fb86def324435e8176bbe,
0xf9e56a5af5386c4884ca7d0e7792a22d3b96a801f3e8e79a6ac6578c1ee0a75,
0x24a746819bb8574eed44e23319cefdd09c0e8c2dd1ce6924a63ffae59eb1a905,
0x703bfec7b532b9135f72a794d9e3a3c6ff665c08d590677026a06cda66055e9,
0x21bf1e826a3e2141ad2cd0c6b286146b530927f0ddca59fa78d06a36564b7a3f,
0x2f678070c83d71945038501c74ba5968b131939a6af6edb297de5f345e6692e5,
0x1c30abb88b3fb7fff8e97da6107209d608fbd9f2db97e61d74dff19d3e36f3bd,
0x2a14fabf9e37f4497914de5868daa628ef3347a611f675d94ef67fc317e28328,
0x9ea8d820c4e6ee47a4fcbfba19cd94e915de9dda25afd1399c921b1b7666854,
0x106d7b2ded46945b3901ef651245d519ae93b8d2eea8160970ed07fcb6f58015
],
[
0x1e6eaab1191593de0d89cbb2399ab8aa955d829ad959428cd539be30b72fde9c,
0x12f17c280efa40df0fafdb7148d7ae86b6401f823e47854b7f11c0a87ff00bf5,
0x2fd97c7d4e331e328d3eda047a68a64f7cac867b6bd3795e2932f350644374a4,
0x2c1c8f60b63e8cbba016d475ba0483d001c70653c1ebc256c51e18975371cf08,
0xfb2d646b505c61dc54f56fe9de66641c6797e59e860528aeb52867aabafc2fe,
0x1a44835e3e9620a13fdc072c1212e942ee95e683d6c07ef097527bc10616c622,
0x192e49c626530d5965c53dc6e4209856d71226aa5021b9eaaa1784044c8baaab,
0x80fa9dddf985137bcfe965068449cb6eb36b1ddb1706d8632864e954f5ac59,
0xff1355d96389f7c74b274950b3f70a3d74bbfe992860c7ba6d9066e59260c30,
0x237f4f3d794bd3a23cc52c74e0ee10dca1d4edd90a3a519af54944ac91deacc5,
0x1c94985507159d367f2aa5a1a04857bd44d205ef8439b844386b025976646bd2,
0x286fb15e9ab4224c0319add3a16b8c82dc71931fe3be2f4b3ff0289a5319c4ac,
0x236262438ed3acbbf4bd56c39d12be65fdc0126562bcd5468a49da6ba33fc9aa,
0xf695879295d610d1edb0da7c3fa43c3633e2d02d2e6af6799a2da41e41c3687,
0x22949d27c373e4447e9814d6f189d064b3b092b4480f8d21c8c12342a956cda6,
0xbe0a5f05b6f2deb2fb6bf836805d52d9ad224e8bb8af6e0ffb194a49ce026f3,
0x3070888a62ededfae0d72f144b8ab370f8a54c52597db33d98c24edf1daba0d
],
[
0x2a3bb020c8a50d310ef5b5c77cc408b077fe2481454754c4568ff668fe5f0974,
0x1399820ddf4829a24bfacbe47f56b793117f599efdfcf9e042bd5780fabc29c4,
0x2303c2e89a14828a19a9f75d97f17fe08b6282fbc090e6dd69a4d780032624b6,
0x1f7a5f8fd30b1f9d7f5855c084e8995367889a1a076da17859cdbbfc8301afc9,
0x14f79e9e9c5998e8cbf5a2f1de18ca7707f5627b5637dcd962725f8ea1804d3c,
0x10199cfd4b1cca1f0cadacfcb429b44bcf83e13ccc098d908163aeaa1cf5a9a,
0x34459376fe4246c7ca6f298180c2150367ec05ede0dafdc4806d34e44c180fc,
0x2933eb342796a75af7e1dc15c04904b5f68bb56ac0478a85233a588509edae0e,
0xed494f6fb5598ab0a0a7c655890ddf4a7c0684f24522d2af98dbeb0204791e3,
0x228e31df905565ece7246c261aa5b700f60f6ddd5d7c249264748ab3e521a20d,
0xd36f7669a52260da523b388c608dc283f107e9578e0bcbe1e3d4201b6d5bfc,
0x2ee63ea38cc2cee0e08789581cb31eee9b112dd61e4032a8beebedceb6aaafe3,
0x2be13746d4b19b770fe382bc7e7a56e805c1ade0c9236e3e28f90a5fa874296e,
0x916249fbbb750e41ce6f9475e6cf6337ca4ace63f7a4a377c14fda9c7b205ad,
0x17855df635fe8e7fc7919412106e9852ecc57aa0b759b490cfc4773078016f53,
0xebb48f5378773ec048ac3eb5c84d44cb2585583ce45ff30a93721d70f289d0c,
0x33106bbde7d027db2f728b2563a62d3d6f8a02ae114bfb8a2593c6a2fc15524
],
[
0x51f815c454b6015c7ebf90c297b90e9604cd36acc6af07f99b5e51fdeb32234,
0xa44004794fbddceeac78010d88b2146984c75553cec26164754d72598358b37,
0x22423aac5a0b511923d747148e091d1945c252a77e51bcc62ee173c5483f80ab,
0x1e14c0a17f23e94ac435bb7f629c6c0ab66fca8c4db085fc56be0ad9da545827,
0x1958d6547accfb884d50229a4fd5b234a377f5c671fb865170d0a393680ba3de,
0x14bcc6d4b8326e66b453691e5c948a80a618b4f7ecdc3a380478d43dd4075ab8,
0x193025256b9871e2afebc966ed68f38d2f906a4870652805e4246353f567c5bb,
0x1e4200bffb9ca4e47bb270a09e8fd994093dbd4805c4cc15185ced28ff872e10,
0x1d1fa5a83742eb9bb853197f56a4732625b2474e7aadb9311dfbdc0f41ac61be,
0x2d650daa87c7e1c09b53b10595bab1e14c32a67142092876c57b4ba68efafd51,
0x33319bd5b5247a3cb7f63dae46dbd8136f3f3a9b4aa0a232309070d718f7d47,
0x26e56b19e55c9bb5df436c13eb6deffab5059804552442370be53a951b0a9e22,
0x1a0f0930bbea65ad095174ed8aaeaa84628d35471bdad37bdd624d2eedb6bf14,
0x297921088a94bfeeea233c91483a21bc59982034e0c8738c6526cd44f9a11306,
0x1082b0f264c61f37b71fad404cbc0207f809cf8002a7e39c0290d88a48120356,
0x25cc52901aebcb35f9ce47457bbc4507bba219c88a5bd1229f6dc46c503c769e,
0x2ae1b5b3e89117e08bb7385e0b711de334e8fdcbb50ea4bb3718d5e1a0bc8075
],
[
0x28b75c2ac167fdf184725317c7bbb8083e5ac5bba937bcfa6cefcb69e4048bf0,
0x4eb2ffac1de16288f52a4b74101cb73d53addd56bbed326bec180ed2363c224,
0x2bd52a360f3328d5c98a6b2de15df151e997cc92c2c72e542819e317c0ee1d2c,
0xff14782906fd866584bb5e93cd18678c22e320ddc66d6fe0e917e18de1094f7,
0xa4a053ffb41f84af21407c6151dc5496a9651a519e317664ecdedb017e3c50a,
0x19dfcf535e723327add95d36e7276afb472408699d7212f34abe32f808b4d292,
0x155dd9ca7898b0559b3e407149e6dd64bed6f9811d59b1ceca7486a110ec99aa,
0x2d9c5bcd84c97759e28dbfdbe9fce6b3c1cc7cbc9a2e35f2ce8a8bdc80a3154b,
0x1ff3d01d32a70fa0911119ebbcb4bcfc1b4fc30b2ec2298832f5da4dce3d7a4e,
0x44ce295745ded1737be0bf68729d669efc18e7e9b55e6ef65f895e2f9e95056,
0x117377429e138736228d8762c8c6567a936980b7c043882adad3951b9986859a,
0x39c17d50605261dabc76676120b2b889ae504138ba722976d8dc822bd1af974,
0x2a6f067cfc9dc40850f552ab42d6c096da045f8039453d7a9e028c39f2f1377c,
0x1d7e961151f8a1d1f6092f102a7c911194618a3bae9ef78de349a99ee05ef476,
0x20431e5d3bcff4bd90372a1eb637c04536317a81b02b48b5a3ae45a4e8380527,
0x116b0dcbc35fae766914fc09cfc359051f626100151eeb2a762d7a0738132a30,
0xab340604e81eb37a5dcbf1e7d5ffde8f2221d60b382d43cf75a0f1360ea5c72
],
[
0x23af324599683d9b71b61d093d63dcbbd97e44957333d2697fdd060c1e4b585,
0xb11660056e02d7f845b79d49bfbb685555febb54eaa503d987ca5299521d16d,
0x1f209382e3fcb44eb1b1c03dc2be195b3f92faa9c1ae1a0b57c4df69e7a53d51,
0x22e25afcf23ec18a36471d593ebc8d93372315cd666db66bf398f7730285f9ae,
0x18eaff4c9d5d00d3483d7b0c74551a4487c452cf672e6a74ca397be38f5d793f,
0x1ebb9f7b5f7f0c553b03552d104693515ccc17529c6c1a462c0c24473630f678,
0x1212ba1ac3bfe0c08096c503be351bbaea92aa3d3f6c264b73c7ceda7f8bd721,
0x2f0256f9b47269790f3f2b46a7ef2536d8661dae60d50a61bab58346e83885c0,
0x1b6a8442e48b709797a514e36c1f86b13a413eb1f7fef458887833ef4b482124,
0xc96e617f36391cc516eb3631eb8a18d4dd10d17135bd93f450ef6ae2a945117,
0xed9dc15c9f4a60f8150e367ba71a4a37a9cb50c9031194f55850a1e5e325911,
0x2b8b201e13900e638685cdb4d07c110a8f8e8d500cee83566aa733621cc20235,
0x23bf4e044f678ba1fef62ce070897d6373914ee936f92a2f4d5e09890e238e34,
0x22c93d459ac5db54f2b6a4f267b5f049b976a93d006b88a98a5fc0ea39f53a72,
0x1a54b0b47d98fe83acc4dfaf83b8bf7d972684923d5c7dcea9894b6a07d934ab,
0x22ccb3842b2d75a33b65465a5dcece6870afabb3e3401faeb6504de406348a23,
0x1e9abeacdd2ff75cca093b6d8826a46d8d2c05e30d1d3995da76a4a8ca9d2824
],
[
0x5a07868a7c95f50a015879fe7cdf1eb6c317e4d489d4515208ddf40a32329ea,
0x28c53ca5db5ceccab548d154ea6071e47ca73b6cd4fda7e423403cb684d3070e,
0x651a487e9ef91d9c4fd75178dc57aa1f76edf56c4c5c2ba6ea7c6d919e91440,
0x16d216f97bdea9f8b01025cb47acd5d03e8469dc6b558a235a23d2ba8773c71e,
0x2c8a5c7f394b071d0f329d51e451c8738f896a2b8f87c6eb3eaaec71ce1cf71c,
0x132175ccda95488f348ba37b6c3641dfbca9e4247ec43977e279f844330cb694,
0x28eba78439ba284229de2b1c6124fdde36323fc82805988501337a3b48aea040,
0x140f550b1cfe4079f7c44efcca6515f70a9ea190d2cb4a2cf116719737b15621,
0x1fa08142c4cf49ceb13532ff6f1c453f9ac4035d8ec5514f4f3b52c3dea9bb0e,
0x592cf45e5a2dd382f1c6ecb059c99232e2b52bac5475c10b6669698cae88827,
0x2897ccf4f75df225ab5b1c79de477945b24f2ea127c5cbb37954370505957a31,
0x288ec4309c81a0d2ecf16c037706ea4d526d717285ae02da008d14cb8ea23ec2,
0x12bd882b0d8af801ae2579a884b11f80f1ba15f48741f61609466bf04f68cefb,
0x2bbaca431e1d464281a1e6f483cb4e9b2002d0a0ba1fa70b60c1bececddb1e79,
0x173087cac123e07a0324ea3c2231cca859d7e4d112c8e2f4dc9249551c941007,
0xbabc1aa6aa0d7b234fe81651f7b6d616607fa766534d5baee6f63bf02995fed,
0x233f5274aab1d107af4bf7f2b7f4d57d8ee0936005a3525549cbfc75697ca640
],
[
0x2c5b4a65bc55ac5fbeebde53ce5fa68882faed2a92a7b3f5732832c72f7f2c30,
0x17d5e7e1862b3708cba3d41c556b070da60b73fc3ef198227f2dad5b202d5c9a,
0x1d7ef8564a9ac7dce945477d529ace63481ace463a86cbdc1140645ed57d0b3b,
0x1edca4960596d41548199aee6040d39d814e4562492a070730982f9755615117,
0x258655ae996ae6e4deba6fecf1190c2afbfc1dbe82454558a18bdc9819442f05,
0x279a42b218cc556132ecaf5666c04e89984f5ffba4225281d3261a48bec6eab9,
0x24605ce4aaa33a0bbc08d586cafd70bcf4c635bedcf98afc3fb0dd32909e8ff,
0x292481a792f2dd4979b04822d73eec02e90c1e4ea42ca5414989ba04c31529c0,
0x19f8effcd417b79016b57398a7bab72f946e75d8628f569f327df5c6832907a1,
0x279c71db7cc16b9c726b934545c2fdb75d956d16f89210aedfd7dbb4f1d9ecfe,
0x16f4afc47a61df3374a702f2800a3a39fb4450a9f92e11e240cc6d76c252de41,
0x1ba7d8b083eb0e83cf9178efe8514e612a5d3905cb9e4279b1c09ae53e8cf23a,
0xa1e2e12a51722b6e0acb9705c443d148b1334dd897185eedd4c4e87170e42c3,
0x1d6b7bb51eb9ba719799096e5e0c1aaa594456cbf08b2bf9a479279f7524d3f,
0x1129fb969355253e7cb31fa942978db34b7ccd3bc0d0cd02ba6a49e159d1cc7,
0x23e3f31479550cb197235af10741c376d326f85881d1f1076882c928212f8b9a,
0x1ac5a27a1a2ea0d7035f74d3a9b54b671e58711d79c87b56d32e40983b62c8d5
],
[
0x173f895e472c4eb16a2aff3b8e0417fb32b83eb1e3233471c76a0550505d0607,
0x500a676c5cd159e6351ef8d2b567646fb4d4c61d3c0b828ec201d4f425991ce,
0x1aba42213aa1f15e7550ca941d9bc485e195ac204c5036afee992a967fadc501,
0x20ebc05e620d2c7c362f8d7916ed7e3e12802cdf41c87b06790c40f5efdf724c,
0x191531c0fa2c547a1eb51cb026e79cd663abf458a2e8630e83c1f11876aeccea,
0x1ff17bff476047fd9a466842c8fbd711c1b3c1841e109c687ba4620ebc49969,
0x17d7ef1f4f75295cfe214dce7fc21dfff13ff8a3c7bb86224c8a79566037179b,
0xbc4494e3d58cd6841d0aab064400e6ae8594c35f7e9672c55f283869e0f3f93,
0x174a4219c4aadec5921ae738b7cb40a3219ef5dec8db3bdfef39b373b224d38c,
0xe989d36297ae2397d85b8025bb304fe42bfb8bf93108996d2ba13968bba9874,
0x1ad84e6a15633eba89050cc15d94e459a6c2d42825986f9c5803c66f08976329,
0x6f0eee01ada409058a818ba8369498fba956e713a7e9372b4220ef15f954a99,
0x74a08a71a7e34b1031b63978e329bd0e12ae631100f24fcecb5a60bef5c3ddc,
0x2185e4a0d25570c435162266b565c1db0f23ce4e61b85b8b8a1872517754b632,
0x2bcd8e3cf988891e58bf8b8d3a259ce52f86de01bb8e6c4d49dc903f4b3ecc07,
0x2027fe75d87804599fb66c0d65b287c4e0582a4e8d84bbbc85c6422cfb5eeb9,
0x1e2dbde2355a4d9c61ac0c0db87447c67e08550ac91bf04d96790142d88cdd00
],
[
0x206cb038cc328526d0c3dc5af19437d83219751c5ee8f61b0e9e2f5881366be3,
0x255fbd250e6628c5eb540c311936b282c52204f56fe81ef75c398d9f0adebe12,
0xe14d98de84653e22efab29261c9a36c207fc9f5650ec1a5bdce6ae992239e84,
0x1342f46c9e240aa8eb2f1dd6c61d0bc79fa6cdc3dd8fa67d79729b02343b6df7,
0xe41cdc0db95ad5d67946f0ff028aad8c3a3c88acf10519e736f9265ce19a2da,
0x1cc6d37794a5bf901341db685e790cd7f7427b669069e4d320efae1d55bd7157,
0x117c39e46a1ae3c90b26b0df85078ebdcb66362515c74d51cdb192f789c9cfc0,
0x2b4c77d18677eb99a966913f7ba7b478ccda159d0f61a58702e80f4952b37077,
0x250d35fabe31fb7fd1719ae0c13cafb64e706932fecfe47e475034289443f240,
0x2c712075e8848b2d26f7c8c6f7accba81a49800ed3515221f03d845407b1e1da,
0x1d04d22563bde8bff1b425e9bf113cfe2fd15dca666b9130e56511462e971465,
0x135cce03597dd23591aa6fb38b2e70ca41ef91ca05997adbc11354cd831d57f1,
0x24716ad2942c2268df507e25be255e45c00d5dba96093df6c63c8a4df733f0e,
0x11cdeee1ba873dc61888aff7be54fe50e03e3a4a5ea0f32c6acae7d15d9f7979,
0x1ae588627ea2e0c046ed4f6c208f29803a25c9b2c0c385be294b9c25a3287e47,
0x8e0df227ca5a17a9081c60caedb5435a8aff99371a70219715b05800ef811d4,
0xa1cb35782612c7998afa40dc467fd39c882e6b3dabab079e63c330bbc8e5f1c
],
[
0x240c57897161666f28d000b88d3353921d967420f401ce86bbee42be287a4f8,
0x7c9f836c94eef4e831b3126c06a9b4ba19c11c7e886f65c0d6267e07882dc57,
0x156f5afd193a11d87249f3422912980daacb8fed225c60a5bdde7c4d93d5a019,
0x203a73837d577d910d3bce1b15fef96c1bb522d4f02cc4032becb907810bc85f,
0x217ac1a2f28cb7bd2509d90ee4c03aab4094e3fef4741cf4015e1e823f71c0e,
0xc2e41be00d98a8dff8b30f5dfbce2708412e200682bd596b2162700a67274de,
0x1fd5670b294ced78188cfd816a41358ca32bbe8e024a2a200fe11d060f8c5e1a,
0x2884fd57b70a2305bf5b94c325b01d03f3cc2e8901014e0be3dabb984514863e,
0x23e772e0725ef73aa18f59f934dc11bdbf5fae9cc67fa18a2319ea13a69b9c4e,
0x122366ae0642411af291571a8904f0b6c6fb11d1ce750b3316ac35f310e5dcef,
0x1d0b0c33d83a40412cdaf42cb7ee8e5042d9a73eb17a0d5867a3191aeaea61d7,
0x8eefbab2c1c522367f543c33400cf254fe07711f94e9036a7558565e7305c0d,
0x209ed5faeeef4d1d01bf753704574d34febc7afd299a04430bc0f8f0baafedc4,
0x1cb753a0f4efe61b05e95e099e4b556770b364873d99e1f77e38a53e9c262673,
0x2a32d7716eba1cf93c98e9bbf805b0e4d27cd7e3f26c560beb2aea41c1782d8a,
0x2936d36a869b8b2318109412bef3c1a0407a8e0b98b4959ee0b624c116040494,
0x281ad4ade7262394bc55b71a8aeb4135af3b0c2433070cb0ebd9ec8e20dc7280
],
[
0x1aaefc2e9925fcd453996fda804063fdab276b37c5f51dfdfef9255b4ec10cc0,
0x2eae17dc561c37084e990fd1bc5057d96e7367c4b801d27f6a6ad8e0d0c0875c,
0x247ee52031ac073a81f56a957908c200477513fcb9853942a62b06fb6eea3bc4,
0x275602e8ac1136b245f551cb053d7eaad7dff488df3f645907a5cb151c553523,
0x6143a7c97a91838b0ad68065370bc9503d3e0c8d11f2a840b2c32c3fe2e79b4,
0x1f3aed03d37f7b14629aa2e5f086bdfbac862325988c4da943f88f4313647df1,
0x18fc0aca1d4a45978f6e3fbc4a35a2579a4c12eb6ea700f79ba56727bab87117,
0x97c4f0ca6dfc073c84e97fd4b2c341ec3c45b6f716700cfd7647e423f5e634e,
0xde5765593280a32bbb1630216e58d1d669ba575b7d276a2432d9c6ee302a5d,
0x7475c2b72238b87b0d8cdc92890f037dad0bd67a3c741e5672bc8677a35c206,
0x244e984c6f2f2133efa9d5dbbc1c60463d26f7748650658395201b367a39f554,
0x27a55f5103ad08547128724e6c20a4ae7af36be03567e4efdeca9880214d42a9,
0x14b2c9ae1ec7a0c1593ef29e782b063ed48e580ddc3255c0a1f081e69b634448,
0xeaf70eb10be27fbcdcfa7ce5e1b289b66fe68a3114038522d61b435f17ef209,
0xbf40bc87a391c052a56e43aadd307df751dbc47ef7c6c5af3e7bc4ce0dc942e,
0x3afb962f8ea2cd1affb52a50cf59cd5b1f08f087537859e8a73524c3c7758e2,
0x240011c27da581b7e91efefbe8f37abfa3c6e456ac5a6da05d4af4884287bea3
]
]".
(** constants.go:6703-6874 *)
Definition txtS_2 : string := "
[
0x66f6f85d6f68a85ec10345351a23a3aaf07f38af8c952a7bceca70bd2af7ad5,
0x1fd20dcb58503896fd52998d6a5be6f12ec33b3cbd590c793e45de825ff8cb5f,
0x8c8295df0ba11861e97f0cdde8f202a7096c1e6452d33d64a11b5be4e0a1efb,
0x66f6f85d6f68a85ec10345351a23a3aaf07f38af8c952a7bceca70bd2af7ad5,
0x2458ee6d7c526073d165d2b08b95cf8947e20e05a76bc12b401b996421e89835,
0x18c235e6e723390aa65baf06ffa557829f78a2fe1fbfb44eef84e938209c92f9,
0x66f6f85d6f68a85ec10345351a23a3aaf07f38af8c952a7bceca70bd2af7ad5,
0x1868e106689f8ea2e9c561b4b192899d07b52e58595c393436c37df24976a584,
0x2d5161804f0ec6445cb8904ad3e8e9ec21153350df4075c9cbe840b7b609ca92,
0x66f6f85d6f68a85ec10345351a23a3aaf07f38af8c952a7bceca70bd2af7ad5,
0x3510550ddf6292355c690f03b9b815aab2dc3f4914612da7ecb79ddcf7b0b90,
0x9a2e7bb3b278a1d5f264a26345ad8365efe0058403d8a52909cf2d5f6ee6170,
0x66f6f85d6f68a85ec10345351a23a3aaf07f38af8c952a7bceca70bd2af7ad5,
0x13dd4148c491a166b015a7a4233f4e488ae94a0e6439be66fe149b50b55759c0,
0x1d2d3b261f5beb3fc010f42ec3825649d90150eee4ce55dc9f86ddf110295550,
0x66f6f85d6f68a85ec10345351a23a3aaf07f38af8c952a7bceca70bd2af7ad5,
0x221b4477678dad4e2abcabb47eb5e7a4129190b3855ae4eecd8ba68643ff77e5,
0x16b76448e9855f165f2043f5f09bedf1830a4998ff45ebc25f1d40e8e8fcd6e4,
0x66f6f85d6f68a85ec10345351a23a3aaf07f38af8c952a7bceca70bd2af7ad5,
0x2a10b6a2cbae9578142cf66104b69e448eae6d3bd53ac8602363460e2286c92d,
0x2db84dba4a9d96cebe94dfb1d59edfa58ccfa871b9c067c522e31949b69f2bec,
0x66f6f85d6f68a85ec10345351a23a3aaf07f38af8c952a7bceca70bd2af7ad5,
0x1ca9bbf26402238296ad897ec1a55b4fc273cf20c1f68f03d5c149be890e7b60,
0x283d37fa5e35d25c83d1b9d34ecb00cd03848ca730ace52f367e0d7b5fde30d6,
0x66f6f85d6f68a85ec10345351a23a3aaf07f38af8c952a7bceca70bd2af7ad5,
0x349057941b141ceea5a063a0ff8ab221271e618a174e5d8009ab5f9c791d960,
0x1af2e1d98c3c09908503883d3b9ed50fe8958eb1e5d6538016c344d40070efc2,
0x66f6f85d6f68a85ec10345351a23a3aaf07f38af8c952a7bceca70bd2af7ad5,
0x5b7bddacf4522b0aa3082e2c05448962743d0023bb6402291f592e6c1da4679,
0x1fceeccf337e8a903cf6a0c21a6445da7ff8c4a0bc78909c7e704131c8a35241,
0x66f6f85d6f68a85ec10345351a23a3aaf07f38af8c952a7bceca70bd2af7ad5,
0x2f30a25f4d843e28afdd850f31d1920ee058dfb6d91c322fc960473e917a6768,
0x1a55160bf49a4936bcc59162617026194574a89e5857751b68f3c08f7c07ce87,
0x66f6f85d6f68a85ec10345351a23a3aaf07f38af8c952a7bceca70bd2af7ad5,
0x19c66ee887ab4763b17573b6ad192b7df1af24f54761998b03b342b95709041e,
0x1a82828b7f87eba7f5f8624b31e1115506ab3e723266777b3789c9104f9c781e,
0x66f6f85d6f68a85ec10345351a23a3aaf07f38af8c952a7bceca70bd2af7ad5,
0xf506d3199d96083de9fc4e71b250825e84a242d81ae3a81d99debc7faed3385,
0x1cac7482d91faef657db9072a97567ff172374d99987a8b24b2c04472aab9f83,
0x66f6f85d6f68a85ec10345351a23a3aaf07f38af8c952a7bceca70bd2af7ad5,
0x249b26b1d4e333b23f3192f0e4f52884ee63d489ee153ecc3216939a72848150,
0x13d1aeb10b225e2a8b97131154407d1bf145972dcd3a0073339dca336180dfb1,
0x66f6f85d6f68a85ec10345351a23a3aaf07f38af8c952a7bceca70bd2af7ad5,
0xb90f72b7fcf867eb2e0f9400787d1dd52720cbc14a7095784e4116624d16df3,
0x25e346edd8dd55142abd2135951398230f0c8d08bc5c365c5a6cd70011a8f39,
0x66f6f85d6f68a85ec10345351a23a3aaf07f38af8c952a7bceca70bd2af7ad5,
0x263003b8ed502577c6427b0b4589ef6ceb87b4e21b7c424e587f2630a7b868a2,
0x2d92ef6b8bdc53dd1b6c5b1c92e5a8248eb9c12255b910ff89c09961ec12ead7,
0x66f6f85d6f68a85ec10345351a23a3aaf07f38af8c952a7bceca70bd2af7ad5,
0x2eb36b6d0bfc593a8d6d9459a7af04f0b15bcae4181bbb123543870c11316681,
0x1e48bb591146f461c1d2f085f3979139e37f4a5c2354952c833b2791f59034e0,
0x66f6f85d6f68a85ec10345351a23a3aaf07f38af8c952a7bceca70bd2af7ad5,
0xe759913751418871f0351ee180ca466cf8a03f541079c1b51bb001550d8162a,
0x1e45e194b16936c5b1f81c72eb0fe8c62e859c4661b14b7e327503cf49eca55b,
0x66f6f85d6f68a85ec10345351a23a3aaf07f38af8c952a7bceca70bd2af7ad5,
0x28c8b58c9e4cfb830a51af4529318b6269c4f6ac1867ed1174ce4aefc57fbeb3,
0x255b293fcb1be27d9e5aafd4cd28c26746fc3520889367eed1355c2c41b93016,
0x66f6f85d6f68a85ec10345351a23a3aaf07f38af8c952a7bceca70bd2af7ad5,
0x1db1367a8e37c5597835365bbfa66f6ecf40da775a54c35d5c94da70415544fe,
0xcdd97951c2f0b885edc683b9db74f08df61286578a69989a9fed7ca34c5b4ce,
0x66f6f85d6f68a85ec10345351a23a3aaf07f38af8c952a7bceca70bd2af7ad5,
0xe4d4e42cacb9fa6745c6dd3630ec5a4cca8a912b7ec28576ab3ba29c57306c9,
0x2141a925c279e4c4e351641744750d4702d90ef2137d1905dada0bae3c7b3af6,
0x66f6f85d6f68a85ec10345351a23a3aaf07f38af8c952a7bceca70bd2af7ad5,
0x8f9f9b3abc79ed89c20597cfbfe49021119cc50648ce401dc50cb042a54d167,
0x6af6c072313d868cd945c9f0eb7d4eadb24c8d4763fa042952b99353df2b236,
0x66f6f85d6f68a85ec10345351a23a3aaf07f38af8c952a7bceca70bd2af7ad5,
0x8b43c97bf4a40b4f376d1fa0c5e6e6955cbf9ba301f878ed3eae4ac812b79d1,
0x11e0e607ac6781ca34a714e6c5b7a4f839852377446520032420e2abe16115a7,
0x66f6f85d6f68a85ec10345351a23a3aaf07f38af8c952a7bceca70bd2af7ad5,
0x2dd7f0e1b303f425cb7e6b1c30ca428b3bff751e7b651152eb4de008b2c00da6,
0x107d7f92d1c6a24068b917120f993ae3ee84349aaadb71eaa4128b349812dda8,
0x66f6f85d6f68a85ec10345351a23a3aaf07f38af8c952a7bceca70bd2af7ad5,
0x10ab9e8e4ec9ad5fdb1166c64ed2fc3223c7e16dd982f66dcd820a7861ae1463,
0x3000d3b3ddb3fb864ccc729984468a7317397713303544a84d7de1d209d25cb1,
0x66f6f85d6f68a85ec10345351a23a3aaf07f38af8c952a7bceca70bd2af7ad5,
0x17610359e624e7feb3eede8099a1dc45c4a0c6b2debc2dc8f200fa27a0da6ebd,
0x2affce5b7a7d8c5aac04f6c2708794cd01a8439b65d74df5982d24ad2a944eb8,
0x66f6f85d6f68a85ec10345351a23a3aaf07f38af8c952a7bceca70bd2af7ad5,
0x2d439fbefe8d2b65ed32658bd21fc5604408d5fb69e1f64965e5895ca61c6e09,
0xb51cc2a1b1c329fd72a286d4938540db3cfc4320de363a3f68a7935cd193ab9,
0x66f6f85d6f68a85ec10345351a23a3aaf07f38af8c952a7bceca70bd2af7ad5,
0x1468ea2868d31f7ebafe78af8c24656a3185963272f34c51d5e2695c43bd3247,
0x29553949324f27f4fa7bd734920e9be7b662a0ec5797fdd4ed3fe19464879b95,
0x66f6f85d6f68a85ec10345351a23a3aaf07f38af8c952a7bceca70bd2af7ad5,
0xd9780ee7d395f7c977fd4b86329f6cd720047a7f9d1672d18d2cfb428343afa,
0x210a098afd451fca3997860e220106c7487f4716831dfff78036de18f17cb31d,
0x66f6f85d6f68a85ec10345351a23a3aaf07f38af8c952a7bceca70bd2af7ad5,
0x1cedcfe2751b360e73d6ef5af88cd5b75a2b2d97c571889a0dda87a0dd90ad81,
0x22719f26e16723c1bd45a619e91836c340a304f3648672f90de2b047880aee03,
0x66f6f85d6f68a85ec10345351a23a3aaf07f38af8c952a7bceca70bd2af7ad5,
0xae0cec959c4c7859f670f19c7490f8eef6ad66346e04613c1350597be000be2,
0x177560de731482bdb7316c238bc38f20a16cd03edda2e0393b1c515ec64b0727,
0x66f6f85d6f68a85ec10345351a23a3aaf07f38af8c952a7bceca70bd2af7ad5,
0x1f19a267da0b8fc2b4850a4f458add5514edf0aad6f7a7f175aef0b98e816a40,
0x1da77cdeff9cf822b54509031ea2888f6f398051ae1870afd3770e7724c09f31,
0x66f6f85d6f68a85ec10345351a23a3aaf07f38af8c952a7bceca70bd2af7ad5,
0x2d1e17aaaa96743665a869970255c267ba338cfd43ec9b33ecaa764f48f17a8,
0xc376a8ff1da39dec980316ea26ef66fae5c86877a8f82266c14670024329d12,
0x66f6f85d6f68a85ec10345351a23a3aaf07f38af8c952a7bceca70bd2af7ad5,
0xbb856048ef43a77b39560adeb3c7a9a783db5cad8e3f422495a69c56680a79,
0x1d81808a3c73be1bb2c99b6403f3ac4a532c88d29ad652cbb20061656006c19a,
0x66f6f85d6f68a85ec10345351a23a3aaf07f38af8c952a7bceca70bd2af7ad5,
0x15e52ae83a9db363d24cc5900df8ff0b81e445d4409a0e2aafd3223c354add62,
0x2aa2fc03cb5f72e237f7d88ef66f765a159be533354ffb88751abb8885203ad4,
0x66f6f85d6f68a85ec10345351a23a3aaf07f38af8c952a7bceca70bd2af7ad5,
0x10afedad881a1da7dace5c69546d0890bc35f41992b1062a7c7789b03ac932c0,
0x1d18193701979ad24042446e947dfedfad22a6e7d4f6bde875fe2d8c882c858a,
0x66f6f85d6f68a85ec10345351a23a3aaf07f38af8c952a7bceca70bd2af7ad5,
0x2f0b8457690e4d9770beb0300a09fc7001cd417061e826bc450dd96d7b24f36,
0xdc31897d61d70e16870e0b02b9776bc53b8b9848be3062f8da18ff9d981effb,
0x66f6f85d6f68a85ec10345351a23a3aaf07f38af8c952a7bceca70bd2af7ad5,
0x203c94bb7694f9cdad3a14a7603e3cb69c141200fd46bdc9ebb0d5d73663525,
0x2b778a231f21f8a6cdaa3c84372933e610eb985dcc81af9926fe8b09f1afc81f,
0x66f6f85d6f68a85ec10345351a23a3aaf07f38af8c952a7bceca70bd2af7ad5,
0x2c8a0376c766055e6a9d5272a2466a28faa7e359db111e84d98b2138c8c9d5d2,
0x2ffda33f5b85a4fde16ba590ae0cd49fce4ad01e095f94f49138fe44aaa8c778,
0x66f6f85d6f68a85ec10345351a23a3aaf07f38af8c952a7bceca70bd2af7ad5,
0x318af53cfd822ec2a7f4d40614f72fc6cb27f44067fb58d15789bbe15444844,
0xd24997465c5b23d4e7436a4ecef2f91ce9f8910b6fa8a4a3ba6f884bd7206cc,
0x66f6f85d6f68a85ec10345351a23a3aaf07f38af8c952a7bceca70bd2af7ad5,
0x1ea39e4d9edebf65d648e42880b396a6becfa66b3c5e47ff9a33577a3d2a658,
0x15e4e016c94a026fd9ede9bdcf11268f7735cf5ebdbdd4a092fda1ee8b50f2ff,
0x66f6f85d6f68a85ec10345351a23a3aaf07f38af8c952a7bceca70bd2af7ad5,
0x2ef185c4b1cdb7072a82fd43fe4bb145c4dbd04973fb3ef76e757b00392eac9d,
0x15cedc8a4ef6f7017d1dd3d92255beb54f1d7d1e3bb0204cb07ab81c71435902,
0x66f6f85d6f68a85ec10345351a23a3aaf07f38af8c952a7bceca70bd2af7ad5,
0xdbf148ee8983db0c117b111270f1c2c8219565733684494eaf5ce0645e5749a,
0x2842f44ddc05dbd5b319b1efe6b3eabced380b99ffc42dfb08805ea2b4c48aab,
0x66f6f85d6f68a85ec10345351a23a3aaf07f38af8c952a7bceca70bd2af7ad5,
0x1aa07e7ffa4a036f1b7efb2e124e75028426fdf5f1e4fb8bb62e1ebf3298af2c,
0x1e5a2abded8c7022a8ba97ea683b605d09f017fd43e92296656561eb96d25d32,
0x66f6f85d6f68a85ec10345351a23a3aaf07f38af8c952a7bceca70bd2af7ad5,
0xacf3ab02c018573bc3d36b0cb73de6df11e8cc1dea223e98a2a0cfbc028d2af,
0x1bab48ad2c31dcec5fcc6df1f02dc4164f949202122673b06105f7ff1beabb29,
0x66f6f85d6f68a85ec10345351a23a3aaf07f38af8c952a7bceca70bd2af7ad5,
0x1a36af3ad1c61cddc06a2a4c6967dc004b589a4a8b358ded11a38cce6a7f31c,
0x125e0e822514cf49536fa643a66e1d2fa6788cb5b4805c9cd3cb69a584e0d8d2,
0x66f6f85d6f68a85ec10345351a23a3aaf07f38af8c952a7bceca70bd2af7ad5,
0x85be8486ecb3dbf71d63940d8d689f9b142434a14d5d4f8c93d7d0f17bfcbd3,
0x275651360d88063b2feead8bc71ae9c002d5db9822ab63b058f11e0d506b17e3,
0x66f6f85d6f68a85ec10345351a23a3aaf07f38af8c952a7bceca70bd2af7ad5,
0xf7eb245596d9ac5ecc21446ed94c80289db1e1f9f620c18f7815b247b228a6f,
0x221862a04a00f406bc67f7677ab459c9d887c8bb88091513f0fc2fb103ad549c,
0x66f6f85d6f68a85ec10345351a23a3aaf07f38af8c952a7bceca70bd2af7ad5,
0x1bd575603b7085afcf0a588a5fadf8705cda7eb1d4ab7e70137dbd47fc26e3a2,
0x146d1d176245ff772db8575d986a82e931079de61e67184c4158a6f62db446f1,
0x66f6f85d6f68a85ec10345351a23a3aaf07f38af8c952a7bceca70bd2af7ad5,
0x2202ec1e7fd85c4749393664f024d578d392d59cb12a42e2ef4fa728da4cd3a,
0x1c0e72693a0e12bff0ab3e12a1203c846b5dfdb9dd5ba26a7309c6970371421,
0x66f6f85d6f68a85ec10345351a23a3aaf07f38af8c952a7bceca70bd2af7ad5,
0x2b3d8733bb4872b6cbb0bd83378163ab14a585dbf5ad9758c07948de056071e0,
0x185d12aa30aed1a0575b9d3dcee6332f4fa34643a429cfdd8de0fdc87a29640e,
0x66f6f85d6f68a85ec10345351a23a3aaf07f38af8c952a7bceca70bd2af7ad5,
0x1b394227301f28bee29bd3dfc35dfcc8e1c60ec6dd944dd33593a9a77675f641,
0x15b1cfd522bdc418f6c08a3deb114a4ff48854b4a496537d41eb3a325f2265e7,
0x66f6f85d6f68a85ec10345351a23a3aaf07f38af8c952a7bceca70bd2af7ad5,
0xbca3aef46833e8a30a9db0a16b59abc619800d2da15da01dd5a0713ff4cbbb8,
0x529062596e51b8ca2c2f8c7cf4adff0853150015e2e6b4ce7af212500f5e6ca,
0x66f6f85d6f68a85ec10345351a23a3aaf07f38af8c952a7bceca70bd2af7ad5,
0x2fda517f4261325a7366a45da1e847cd150d022be2982eb6105dcfc31fdef60,
0x1fec5a09cea4d25e5b7ff9d2fbab64d264db993e8d8629b7154a1539d12dd1cf,
0x66f6f85d6f68a85ec10345351a23a3aaf07f38af8c952a7bceca70bd2af7ad5,
0x2d87776eef5dfabbe5605094751af17b831717fa3f8e01943b74d1a9a42eb1bb,
0xd257a437910f3995aebd0afb9be584967afa4188c4684958f68c39f9f01ff19,
0x66f6f85d6f68a85ec10345351a23a3aaf07f38af8c952a7bceca70bd2af7ad5,
0x98f0aa06092ed2cbcbac004f90799e6e1c32fc24a9f0b6066f8d7289716aee4,
0xcc57cdbb08507d62bf67a4493cc262fb6c09d557013fff1f573f431221f8ff9
]".
(** constants.go:6875-7163 *)
Definition txtS_3 : string := "
[
0x109b7f411ba0e4c9b2b70caf5c36a7b194be7c11ad24378bfedb68592ba8118b,
0x3f0815ab463f1b76ee25a9b8768b3231a89752f427f4f063ab718e707576b31,
0x15648bf46f60d82954c7e33029b3617357012a3d3b1d34c8e008859f1dbfb317,
0x127e00c2253de07818ca7f2eafdd7564d05ea850cf61f1daa0cfefbf7fbfba85,
0x66365afd18a41ef9382fc0b1d265cb4d3ce470a8cbbb878f7d48051630747bd,
0x109b7f411ba0e4c9b2b70caf5c36a7b194be7c11ad24378bfedb68592ba8118b,
0x219d14f823513140dc69a96f7fe7e086f4fa24c84e57dcf2b099715c4404aae7,
0x3a30bfbbf2cb86d4a6a63a8050d91f9f14f4d33696d37ebaefa9ac2302132d5,
0x2121bbcdeaa33a35b0270fb7d5c9f94edad5a84d74b06e3385104b0b41935bcc,
0x196b544fbeb0a792cfbb82c289e579b7cd5580c2e338a389d053ef8b3d10e70e,
0x109b7f411ba0e4c9b2b70caf5c36a7b194be7c11ad24378bfedb68592ba8118b,
0x2809c3a1547c0cee89c1db270ef479c26973ec73edb4bd4e7d907ea0202f560f,
0x11c34446b083ef92ca157585a02b8b342a4c67175b31f4b5d40d4e96dfc5c8f1,
0x253ea0b33a8bf3b2367c030e3289cbe0f6242ad7709d90b86d9d8026e2e39925,
0x30467dc1930f6afe90c89d4007ad29fc4f5a19c006d1030438c16df85637bd5f,
0x109b7f411ba0e4c9b2b70caf5c36a7b194be7c11ad24378bfedb68592ba8118b,
0x2f9d4b55495f7e377e20e6f5a3a88af7aa6a536458b38bbe13c8ebfbbba54f44,
0x1d9e9d5c736e3151f11d36d499e7e093d8ee2353be18aad54cfd03ff0feac4b8,
0x124b617b43e598f9ebf622f7823a3de7d1bfedb87e097c315f343de301e54841,
0x198e7cfc66ae45774055cf073bedc945a5f9c5b19cae08d789cc5748ffe199b2,
0x109b7f411ba0e4c9b2b70caf5c36a7b194be7c11ad24378bfedb68592ba8118b,
0x2eac25b3498dfadffd124ab3aad57789eb945ba57443099c5bb6c27ed977fe24,
0x1ee02c175cdfe1871b378305c1bb9c904e8af1d4454ed3550b3c6ab5f4f90126,
0x616f8c34c607266b29ea8f9d2dfa47ff6fbb1d9745c48609fa98301d0f679d5,
0x181d68b0a188504958b9f19cbbdb972a853e51ed385e4883a43a42832803370b,
0x109b7f411ba0e4c9b2b70caf5c36a7b194be7c11ad24378bfedb68592ba8118b,
0x2d5397ce863464a25d6b7f5b015d579181d1ce2f24cbabf6059e9327f5ba7004,
0x15bf817491b94d71e8912940cc0b80277713e7d32da2b6591724d8dbd4bc2618,
0x2a7cbd11460b177ab76feab28b69485ac8cc687740bc910994a3827d29c08714,
0xf7cd5ffa4661730ab56e447fae5cc1763cb462da80a85614c237b290de9d502,
0x109b7f411ba0e4c9b2b70caf5c36a7b194be7c11ad24378bfedb68592ba8118b,
0xe0766004b4c4176eb13273508eb6575f768137d86d305be644ce04531008100,
0x625fa7145813481f6d148be6b9c8bb7b54ee3c1afac00104e1f763000b9924c,
0x7c5472508b459916ee0f5461aad2e0b19cd9c7b184f515b65136318ce2c6a5,
0x567375470d189b693ac77ab3fb7557231d53073951d43c54685879cb7a89fcb,
0x109b7f411ba0e4c9b2b70caf5c36a7b194be7c11ad24378bfedb68592ba8118b,
0x1d0406bcbec83f8d5165f56c063e42108ad21f51ea4bfc71601174ba5c7b8bcc,
0xc02b18eef22332d280a8aa1f86405f3375f06342f8696ee7c73b46c63272cb7,
0x17c1fc174cd9a6ebeaa7add2f801a664823509ad4fd1b15aad053a55ad6da4cf,
0x5f843c23024eb1dab7ebbc86709a021aaa6caf433f7ed258a08638e9584b32d,
0x109b7f411ba0e4c9b2b70caf5c36a7b194be7c11ad24378bfedb68592ba8118b,
0x22df2420697ca28b5cc51c53165e002727b45ccd90a55c87589f792f0ad8cb37,
0x2f1438303a7b49d473400aaedf0f48009fd3af804b76be86417588efc4d7302a,
0x2323d5fcf2da8965c6b2b7b4fbf9a24bbaa7f4dccd35d5ca6155c5463093b23b,
0x26c85b9dfbbe48fe83b753a5e7336b9f40f7b961e9c54f94e37700073d4d26e,
0x109b7f411ba0e4c9b2b70caf5c36a7b194be7c11ad24378bfedb68592ba8118b,
0x31511000251ec86feb38b5ab4e335f070b271df4c20979528e41d65384c318f,
0x18e588324a9bbaacb42fa69e5d90a0c0e27cd16b941e34a60ff5df9a26c03af1,
0x2642b5d8e16b953b070635775c8d3c9498357d6ad9bef2e7d99f03c10ea1f95f,
0x21fc313ba11c60e8e84ff60db906a0f031189b0b48335c4221f909aef836c133,
0x109b7f411ba0e4c9b2b70caf5c36a7b194be7c11ad24378bfedb68592ba8118b,
0x2d3562e3d4b42bc6890b698cc6ab89f7311298bcbac6e4e9f2f4d93d06dae151,
0xa74ef541d360e842e3e0b6ff7e5c7c77934a5f67616f01c189d886dfd2e0808,
0x140564b53e0a812ac3983d6e3b433afa43f434087d9e754967c2c9b1b02caf8a,
0x14709e32d98ae4cd18b400181e71ab9759c436c8e83fa6993adb6f2db6bba9d0,
0x109b7f411ba0e4c9b2b70caf5c36a7b194be7c11ad24378bfedb68592ba8118b,
0x734b2366c59e394423f179e1266dd392372db4f2dba651f4a619a4b52bdc010,
0x11fb2d705c94b08d5ad3e3c5fb6629abe963ed92913642c7d02d7e71088fd2d4,
0x27d03abf5c1f290e5d715eba19371050ef6eb7f78fd84be834e4cc3618059484,
0x13ed9e9e6b452df27fb3353cfc2cd63ebe817f212a39c6a8bb9b441ac1395861,
0x109b7f411ba0e4c9b2b70caf5c36a7b194be7c11ad24378bfedb68592ba8118b,
0x1319c51cf37aaa10246cdaaa04a12e88795de4452604263a7c5b79ab99cbd23c,
0xbca25588d187b7f9dad839f2c8cb526a4cf444eebbd0e715b6cea019ac3f2,
0x1d837ea0341c5964181226874b923cd01a069b493f02f7a3c01be23cf51d593f,
0x1b41ce9ed3634cbd42c427ce4c5c83774149e2a6dbd25f24012090db7de4e7f9,
0x109b7f411ba0e4c9b2b70caf5c36a7b194be7c11ad24378bfedb68592ba8118b,
0x671f0e3b674ae7cddc790ecc4e946f4bca74b98b78a127c7b56bd6673f1ce1f,
0x19fc073797a39b272e40cd30615f55fefeb682c1ac14143071d0449a5426e4e,
0x17bee47d262a497fd1f7c5c6d5a7c70fa4209480bf5d97311c5096619e9fd13,
0x2073cff92d3141b480763539cff2978a4c7944721cc937ba00cc8527274471e3,
0x109b7f411ba0e4c9b2b70caf5c36a7b194be7c11ad24378bfedb68592ba8118b,
0x3bd7b3e2c1885877f43182a55a91d48f9c58d152e730fe2c7aa46b1fa663baa,
0x226ebc9a538b5bbaff128edfb9bbf5fa0ceb100719a14c8dfed9ffbbbad9b6b7,
0xd395f0b08b9fede0373a06e1552c0e634a49572af1d830dc6e394e8a5d3b21a,
0x28242439b524540a30d49b68e19e31ba5284bd3bcf1e0f2f41f77d5331f99ffa,
0x109b7f411ba0e4c9b2b70caf5c36a7b194be7c11ad24378bfedb68592ba8118b,
0x370d6fa19eaac142d2de034801ab85e0b457e129e91f929754b48c6154d4df6,
0x9a16f573b3280f390762abf269579eaa37939bc0c753feb0a2b2e0bcbde1659,
0x2228e360fb5b162b496ac443f98127ee3c0021a690b71b268d99981368231d97,
0x7e42c2ca633d2c49fabf83991476d209431e34d8032b6a1b97675f3c567f944,
0x109b7f411ba0e4c9b2b70caf5c36a7b194be7c11ad24378bfedb68592ba8118b,
0x2ce12d7269663770c3cab85a6215a32eed35fda1d8e9d753a50fe96097724a9f,
0x3d7427704c61e2009eeb9b1b45a0125084bc4daf70973a7ba0b2231815b15de,
0x10f8abf0764185861c1267fcf4b4b33ca096fb4ddc4626732d86921e553e69c6,
0x17ccaf6f26f7267a025d7cb456e3aeb251a1a620aaf6568a5c95644c7c5914cc,
0x109b7f411ba0e4c9b2b70caf5c36a7b194be7c11ad24378bfedb68592ba8118b,
0x63bb306b96310051385c3ce00ca820ad0e3651a6e55754d59de6df28cea4d51,
0x1f761ee5553c5e86f2c304a18095ab7403242e0b65e608bc920cf993a4169974,
0xdc5f00bbfd7c1d9a23c0e666859ba6564bcde8761b45717cd6bdfc09de4e8f2,
0x6de511520e277b7df07c3536381c13eb44cf790a230abc391089760bfc40ef2,
0x109b7f411ba0e4c9b2b70caf5c36a7b194be7c11ad24378bfedb68592ba8118b,
0x2a134348c8660efcf9ef54863e70528a1fd4481b50a1fe21f24a8c06e10cca03,
0xaeb5023bbb9a64c4bd80089e99edf8ed5f6f1ffb63a7dbba1b33520bcfce37b,
0x141a6d0810366ae225ecb5f0bfdc9995406c5960ab26155836fc51fb7cb933d1,
0x9d2ea05ef54dadbbe776f404dca6626cc0b2539990bc0b8bfe87497f1e2c5b7,
0x109b7f411ba0e4c9b2b70caf5c36a7b194be7c11ad24378bfedb68592ba8118b,
0x1e56d244a8e41be5d104d5f8ef70891d22d4a5432441bfe8ff1a16e91719cdde,
0x1d4f020c57c4f14aec908b2f99b5c4fd5e09447fa85c2fd68ba4d5c5f50c7b49,
0x763911a3a92a4f0e09f4e14cd03398d8d82a1e09db80fb0ee1e833764c18fd3,
0x12857275be2fe6b9ba2ec68f9061643f1fc5d9a2c5e47e55684366e54b302946,
0x109b7f411ba0e4c9b2b70caf5c36a7b194be7c11ad24378bfedb68592ba8118b,
0x2ed11ccd2e2e2376655ffe9a96c4b81adc0a60353c5d83d4d0ebf50d1bbf87c0,
0x3e31de8958e82645b320d5e3e966ef4726d5b1c2cfbb4acd288a21543c6d594,
0x11e880dfefdbd08858ae890046533d58da28a608d7e905366ec2ca4a36e71963,
0x1835b275deaed2d00704a9c3cc21ab7a44a34662978d53c190dc25e969a507b2,
0x109b7f411ba0e4c9b2b70caf5c36a7b194be7c11ad24378bfedb68592ba8118b,
0x68b75315e25ed4ace5a4a9480e1d82ce5d44f76f1324240419f372ff8d3c3f5,
0x1b7ef7d04aec73d62b052d2ad12b92a4268fccd795c839d698ad3b22823274d1,
0x28c0c848022a90606f6193ff5501b57216b670727f4b8efcc240d30bbaa9f03f,
0x13bda49296cbcc51686a7bfb1c39f3f254370985a16660efd6e5d82d4f068e1b,
0x109b7f411ba0e4c9b2b70caf5c36a7b194be7c11ad24378bfedb68592ba8118b,
0x2e7987ea8204389d11eb10b34265e378a945729f86c3e0e2fd38490d3a594141,
0x826d4a2324ad3aa4b2b45c10a190fedef702aeffda3226ce5415fffd03935c8,
0x2dbeee85eaeaa9fa3675ef541c9df7bb964a85435c3b59685f93b434036ded,
0x227ee7a945edaee6919418ecb3279b11e6fa44f5f5c5abfb966a4be599cb86c7,
0x109b7f411ba0e4c9b2b70caf5c36a7b194be7c11ad24378bfedb68592ba8118b,
0x1d0a6d1a9519877805ac90d696faf2a5ffadc23986de8c698d541471c7244220,
0x2208aaba508ae816da4f333b7854fbbcd10eea1db284ec3e9f4de02b25f6e9d4,
0x28a58901035b2c99e36a7d29b587a215c9e59268e2f8e01a175720971ccf04ec,
0x112f6d8d42b0a0d123a07865ca1376df317a2a14ffc0191226f38a8adfd6238,
0x109b7f411ba0e4c9b2b70caf5c36a7b194be7c11ad24378bfedb68592ba8118b,
0x8c6eb19c016d1833174dda182d266d5c727f97fb4d01f1daf906b6d3c6e2308,
0x1359d2d6c8b5a116d0b38b95f9c642df75b1be9a48c8698ecfea9103f73f1879,
0x10c5052ec67ab9b6a467c1cc1878d91aaa07aacf7725f8a5ed42b699c4af3ca7,
0x583c4d292d54f3cdb708803e6338fc6afdb188d5d4e9f060193823684c96c75,
0x109b7f411ba0e4c9b2b70caf5c36a7b194be7c11ad24378bfedb68592ba8118b,
0x2d94a1c55be382151a4054c5b96322e7bcd1fe2b3e076e16ee2c18bfc06f57b4,
0x15e3402fdde8770fb997369579c1b1703ef77c671927ead80dbc64dd2211c3ec,
0x185be98784817f22f7b21e6b867d5a71b5000bef8bb902eb302677e20a727be3,
0x18db4321c721c03666ed8927c89890aa8aad1b00c054547b5ca14cd94de467b6,
0x109b7f411ba0e4c9b2b70caf5c36a7b194be7c11ad24378bfedb68592ba8118b,
0x2a852b6247f5d61f0c390b3f3d799188528849bcd2cd0aff4eb2134a039b5126,
0x2510aeed51b7f506e65fb9a18ee0124aa5276f6de1cd771b165930204da58f22,
0xf2074a32eb8260fb5bd3a236f03a47b47b7fb54dcad1d7977d6486513bab5f2,
0x2f4c69297866bd45a8270e19941926cec3531c9e12c4c2c84971404bfa044090,
0x109b7f411ba0e4c9b2b70caf5c36a7b194be7c11ad24378bfedb68592ba8118b,
0x154668727d2dbadf05d083a65093c0d0e92df5fd5f3fd75e9b792c562a37473f,
0x1e6ffc5d6a1ff5dc4fd77fc5ab5c8c4e8d3e2e375bcd1194a91e5b0f7b13cadf,
0x2cf1a1d7c44309109d75acbc9395cb8398c8b2d428538571fafa389da29990c6,
0x140fb39a89f26f6d87cf76cd5ce8da47aa5d8a023e24cf016ecf64cf793c9880,
0x109b7f411ba0e4c9b2b70caf5c36a7b194be7c11ad24378bfedb68592ba8118b,
0x1289d13d58a17b5bf0712b201fb3cddfce2c16dac159990b8298a93a8589f9e8,
0xf45cf974d2c9edb5781e8d3d207adc8370cf56bc5218749610920fe98b2db2e,
0x11909c81a16518046b79edfd24f5abcc585a81d1b333568b8687a1c9eceb44d4,
0x2990b23c81882f7709f3b891a0e3da4d6917672f2d5a1041fd7bbd6792330d16,
0x109b7f411ba0e4c9b2b70caf5c36a7b194be7c11ad24378bfedb68592ba8118b,
0x609551b14716ca3cd5560e0821e7285e0a083ea9a16dc102ecf461e4aef7277,
0xc8c1abdfab99d03fd93dced2467354b6175de1755f4f93dc0880eaa08d03f77,
0x138bd098c4923b9fbd02f33f8bec6c730db3fed298ec09f78a7a55d08f2e0b10,
0x2e61e4bc021630114673f0f77161ae55dcd0b45ce07d9ae3f21bb5a3190f14c0,
0x109b7f411ba0e4c9b2b70caf5c36a7b194be7c11ad24378bfedb68592ba8118b,
0x124860913e3df8f65a9c4060ce3297c626abd1c22401c905ddb408260d8e910,
0x13807f89c394a133ec104804d955cbe125f24c5701d98286c6ac8b7ed052ec8,
0x2e88d1a6938f0788132aa9eeaec08d2f59aa444050c8f4c4e85578abb0fc2fe5,
0x1f3d24f17cfc6050a0cbf64e1f1787e2257be3c3ba607c2e8fcc1f26abf3104,
0x109b7f411ba0e4c9b2b70caf5c36a7b194be7c11ad24378bfedb68592ba8118b,
0x1fe1cb0e2ae169f83b9d4f133d41fb5b3fe6c76a82a916bfd9b62f82f0f8d0bf,
0xef79351229409cd353329221229827e19946f3d8d1c48bf5e3377f9177071f3,
0x18fb2e46fc1b90fe1c4893ef77a9d111507551883127860e89088608373beda9,
0x77afe2579f42ec14c32ef0761e23a3cc0ad6263a68c5cb61916bd57120d1868,
0x109b7f411ba0e4c9b2b70caf5c36a7b194be7c11ad24378bfedb68592ba8118b,
0x79769092daa5a752642c04ccf8a6ea54e2ac9836fdd65d248b186f1490b7b99,
0x1d8bf229c19968f0254eb6e09c5c8bfd67eb9734606b676b663c76cf76bab4a5,
0x2a33b7d855e7fe55f93556e49e4b37737664f14236f17256428f29f6ec1bddad,
0x25b0331d7e2b15af4ec161c86e84ba6ab2056077e7aa7536340dc3187ccca8b2,
0x109b7f411ba0e4c9b2b70caf5c36a7b194be7c11ad24378bfedb68592ba8118b,
0x762098f5fe26598ccbf45e4810211b0ffcf8ccbb92c16e2f4f13f22342474e2,
0xe234d720d70b2886d0da4c007b1bda42362e144185c70716dece2b6172c2514,
0x1d82bedccd2bc8a06e3742e720b7fec2ea72182f11c0c60d135c811152aa4b60,
0x480064d4b3eb0ada5e9a3e7d05930b7c3397fd6b94d481314bd1c690a17c979,
0x109b7f411ba0e4c9b2b70caf5c36a7b194be7c11ad24378bfedb68592ba8118b,
0x10a892763b3cca9ef7593fbb1140edc8c8e4580568560cf41867f7464fb0c11a,
0xb5ec64548ea841ac921f9b2553680785978b315667ae4714dde4cd7f4de8b91,
0x10554aca4e348e5949761bd7131dfaebd78010edd030e1a9ce3c65c9db931d46,
0x15be66f38d86b0998b93655462b1f475b9be9de306e150d4ac648fab3db0cff6,
0x109b7f411ba0e4c9b2b70caf5c36a7b194be7c11ad24378bfedb68592ba8118b,
0x176ad3600fd3491182d182957ffad01bf6c26e9d4ab0c23caaf308e427d3dbe8,
0x2b6f355b3dbf65f09335001d705ac125e3beb20f4fc11bd3ce82b5cf0af2e6f2,
0x1c85c06a6d5d40d81d7c89edefb32d1a8448c51288fa296b6de9ff788c77451,
0x20e1e876c4746a0cbd9a51d76b2e25f82361c389e43f7d1f51a70aaac2460d79,
0x109b7f411ba0e4c9b2b70caf5c36a7b194be7c11ad24378bfedb68592ba8118b,
0x20e46219f684186d2a024b637bc35a29ee3b08ce737701392d987dda9217fa08,
0x2ea7279db9f2aa0f654e987907277c24480766367a8bd90e28be0f2ed6091367,
0x136be2a7f18924c9362096d472bc75ca0969dc077c9171b1641be95091780f74,
0x1ca2033501baa3f73067c4300fb0f51119ed5736fbc8f1f6c924baf0df5a0e9e,
0x109b7f411ba0e4c9b2b70caf5c36a7b194be7c11ad24378bfedb68592ba8118b,
0xa82f199c2505277ecaa75e495f34e3525824f7a4a9d9fa1da810832b48a50c7,
0xecf10485307b4bae92fefb0d7f7782a9f37a2722e7ed9eb7925a2dea580b7d5,
0x7b642138dfd6a6dd12aa22f08a8296d68615c8478f13af16aebbbb339a3936b,
0x1d9dda43a25593ffd2256d34921fb86ed70e760ba76d61e9cbc3b6dd0f1a2150,
0x109b7f411ba0e4c9b2b70caf5c36a7b194be7c11ad24378bfedb68592ba8118b,
0x2f1af228520c8b751dc91136c91c6bccd5367eb08213d392958ce2fd3d7d2fce,
0x1fecfe833ad540455c6d6c1ab3de4abae61ada625a1a2b6b18551a45a6cde123,
0x18fc8e608c735b2b3b0d7583460227575657ff8a77abe637bdd3ad28e4a23c88,
0x28f740bc1182e9706ebf03cb3f53aba8a43ce0b618783a5586388a7547faa815,
0x109b7f411ba0e4c9b2b70caf5c36a7b194be7c11ad24378bfedb68592ba8118b,
0x47998cc0af5a26b94ad301e4b998d29e960a4851cfd13822bed35b7146966a4,
0x1b5f1525b31db911dda43e415e1b9a3a9725c7b52e880ee130a14a692b777b70,
0x275a83fa5d19b4535f65e965a90eac9bf770ae9bd1d7b1af945fa57ed5c8de6e,
0x2e8789257ed2cbcccb430568e49bc9dc2a563359808c9897ce3e40a6f6a27aa8,
0x109b7f411ba0e4c9b2b70caf5c36a7b194be7c11ad24378bfedb68592ba8118b,
0x927f46cfe80feefeb2721a4c09e9d17f60c34500dcd6e41e2925a39c8e2c7c1,
0x1f868ae04832a5dbc37619bfe6ab6a97fd8fb2cfbc1ecf9e0e484bbfe7698101,
0x9d7a11e27d2f53109b73f745b2defed65d94ba80f308fb19ce6d56c9b45eff4,
0x282d857cfe8da3b5104e1c2823fb7c5b9a7b25924fda5995b0c351aa2b879dff,
0x109b7f411ba0e4c9b2b70caf5c36a7b194be7c11ad24378bfedb68592ba8118b,
0x20ba8a9fcec815b13f349ff830ae663b27576e135c0744f6987fb0f6ff49c217,
0x11b6afc91e32f1ca4589fba12e657d226d57b471ddd2ab1b66a8ae4dcbfb136e,
0x2e666402ac9cc588316e335c7d93db344788eec2c72ddf3f908141736cebc3be,
0x17522e0e9e64f795a202a110e283faad7057aec5c9ed9a1a74920f2794f18595,
0x109b7f411ba0e4c9b2b70caf5c36a7b194be7c11ad24378bfedb68592ba8118b,
0x2d2ed17f7a1f3ee9e20b470cad4cc7319e6adb40e2ff24b7878cb9878edbd3b9,
0x1a81efb19d7e1edaa96fa276e89e85d08f75e54a8136f4d73c937da16c7bf9f4,
0x27ff57c1ca847e57210a7b44e52e5630f299c5f451c7a0d515a16bb3bd33e237,
0x1c1a8e22230abcd13c5be96031bfa167840d117b3c6a5a0a11be26a7f5fb1a94,
0x109b7f411ba0e4c9b2b70caf5c36a7b194be7c11ad24378bfedb68592ba8118b,
0x2a1c3f15d4927c843627a9cd533e4250d81e7774d2c32b59d5836f9c19a5657,
0x2ddbb7239eb904d81c52499b37cb4be1af0373a10ac112e185acb219899357e4,
0xdff198393085a754e0d6faec54be81d8edf8bc25edadab48a86fad6da0afb60,
0x10d50c2473146bbc76275fcc589d038dec8db28728789f28b6d5f504bd1645ca,
0x109b7f411ba0e4c9b2b70caf5c36a7b194be7c11ad24378bfedb68592ba8118b,
0x61e8328fb5593f92a53dfd40e1022e6231ba45948506282536b08b4476c1538,
0x1b589243847198ded90b644bee31ac58067debf3f07d3c51cfa5a0dd9f6d9784,
0x4b00c0da1f851e59863b053bd4c6087190f0bdcced99d5ce6f67a420a3bd1f7,
0x239941a46c2b93d9126a70163009a7ac27f8a8d42e35018b3bec8cdcb5ddfd67,
0x109b7f411ba0e4c9b2b70caf5c36a7b194be7c11ad24378bfedb68592ba8118b,
0x204f26ca7993b03ac2c35377cb0a3712bfc9bc3ec0bfecb4e87ef6814acf2ea2,
0x85aff9c7fdadba039d832d8be165a1e5747cf7308d515e348ef117e926d721c,
0x249042a8dc111f27c4ae9db044c0b0b3f10e57d05e093158efd375df00ea2068,
0x6e799bcdf2b4a74542854f3029803e2f84550665203327b3e0825977413e96b,
0x109b7f411ba0e4c9b2b70caf5c36a7b194be7c11ad24378bfedb68592ba8118b,
0x1cb3caed4bffb6aca9f4d2c002921bc3fffed333cae12085c612496183b87996,
0xb47e9755fae480128a128bfd4faa6a3dd6ea03cab566889dcd99e84d310d51c,
0xc7e4cea365c2061920a0c9fd2c360a6506293bc024fd1ca3f0bb730da886a4f,
0x21da1f701bac77bcbbaa30d964d6f6f63dbe1b20d9d6988c8dcd7ba4187215df,
0x109b7f411ba0e4c9b2b70caf5c36a7b194be7c11ad24378bfedb68592ba8118b,
0x9ae612e8ba1ca1370905fb67899d10db86b47bd19965b6edd1a9486e3c6cc55,
0x262e1e0b56cac47fc150f284491190e6aab75445b0c99373fe1f7a0e3b95cf3d,
0x234bf4a7dce7587c2c87c293e3bb7c9e2a7bfa5f29fd4ddeaa5d3f67491d34bd,
0x2f6cbac694c886b02d0a527cac744fb658d2690e213d7432eee67f6cb69f70c2,
0x109b7f411ba0e4c9b2b70caf5c36a7b194be7c11ad24378bfedb68592ba8118b,
0x22accb18b7c49b4b7bb8c9fdf78b7aded52aa1842fff818d9a3300876dec3ad9,
0x81e2f0652f898c6d659f22d2c77be302eabd9182a0b3d3cbf623a1df7f8f2fc,
0x12c0a25e70d006eccea3ada75d669b8c534b962890f3ffc016b3186ad675b935,
0x10ef9c23848128cc2fd6fc869df24d7ab56efd349edd56f49f8d4f2381df3259,
0x109b7f411ba0e4c9b2b70caf5c36a7b194be7c11ad24378bfedb68592ba8118b,
0x2161cd280772819dd4a81262b71df1bcc2c1d41b9491e0620bda347962b240f0,
0x2cebb0ae5108318eb406590041b5248292533364f799bc41b7f4fdd12cb8d38a,
0x2b2092f86b5979a7fe4f7c22d9561f3bf2852283a656880fb759e08709a0a62f,
0x1566b3402d774b8c08146188425a442450cfc900cf643e7382b2d8507a065fed,
0x109b7f411ba0e4c9b2b70caf5c36a7b194be7c11ad24378bfedb68592ba8118b,
0x11a316aa31607f268fb4c56d6c57ba01627c3635fccf8d3d1a163e601d1a0173,
0xde7ee069c934256b782648b560e595408a5e8434644609152e353d9c2874e44,
0x2d36f4029245704cc84df0297708c5e5845c36ae706c72e67128b8949eab1af,
0x1b8cc326b5ee160f53198c217fb34e899bde46cd82dabdc284d7951d546f858,
0x109b7f411ba0e4c9b2b70caf5c36a7b194be7c11ad24378bfedb68592ba8118b,
0x27625da0f73ea07110689fb2187b71694cbf9203fd4ddf8a96ece85407550ebb,
0x1cd8338a3e5b1ad7cdc0da581a6950f6dea349c3edda06cb99ba025b94e4790d,
0x5ea02d65b209f6da763856c94b6438c78a8aed8d3e67e877a10a84072741a56,
0x9f7cb68d4e388f85366cfcf284a895d8b6250ced627e810817743ce03330a55,
0x109b7f411ba0e4c9b2b70caf5c36a7b194be7c11ad24378bfedb68592ba8118b,
0x18c6230ddc0f896827b043f5e58dbd1aec13995a202e4ebcdfeb969e9d5c1212,
0x73a6114b997285e1a91c0a0fdccdaa8452e4f07bfd2e1a10578232096db6dcd,
0x2e78746340b2a6d222c6a1fc0838adf5fe013f39b1660ce7a3e7742b2f37be7f,
0x7aa27e7150baddd06303ad8e5e4bf4249b7ea846553def28e675259d3e5c851,
0x109b7f411ba0e4c9b2b70caf5c36a7b194be7c11ad24378bfedb68592ba8118b,
0xb66fdec210ea4eabf623d2712cf4d9fa90273ccb4643f680cbc98345715ead8,
0x2fb6a29d9f394a589b633b8a4d6be51c9c0601ce0b140be641acea41c49aa5e3,
0x29025cc66fd041c4fc845e9c1c2cd1288569fb243d049bd675a69dc889b2ce2a,
0x150963f0aca9bcbe4126214ab9c627a6f7ed731cfa695168b85d534b17be3f48,
0x109b7f411ba0e4c9b2b70caf5c36a7b194be7c11ad24378bfedb68592ba8118b,
0xed59780302257663f72c1bfc6656eb7b5bca2e47bec0d5798a08a32a61a8a65,
0x7e19cb8a893369b3d30ae188c767f391c11888a3000debfc8d30c06143cc084,
0x600c7d2b6946345e5f1eeeafb5eb8ec2b6ecfe528d2c052cd860afb4a3aa272,
0x596083b6c972bc13022a1f33d6523b4773f2cd0a480e19ea0125119f0385705,
0x109b7f411ba0e4c9b2b70caf5c36a7b194be7c11ad24378bfedb68592ba8118b,
0x210b5c36f27a07d97f98b9d8663d85db2e64513099a8e1ef6db21043631e24c4,
0x13bb2764bf1475cfc7bb9f3d563c5cc201c2489874e9159326a8f4930b7883f9,
0x202cf557d625c26080eb082862a76757287872b181e89997219e4b7576e24d30,
0xe561c3f8bd4f76e76d49e97142d220601fbc5a03d905a4728ea1f95fd8824b2,
0x109b7f411ba0e4c9b2b70caf5c36a7b194be7c11ad24378bfedb68592ba8118b,
0xde20097480e7555471785de07bd9809d57dd859bbe827307c33ae9ed7890597,
0x72f2a6287fb984bb810df8c5788eebcfd2825613cb72bb80cde8edd76d2e97d,
0x2969f27eed31a480b9c36c764379dbca2cc8fdd1415c3dded62940bcde0bd771,
0x143021ec686a3f330d5f9e654638065ce6cd79e28c5b3753326244ee65a1b1a7
]".

(** constants.go:47-2325 *)
Definition strPOSEIDON_C (t : nat) : string :=
  match t with
  | 2 => txtC_2
  | 3 => txtC_3
  | 4 => txtC_4
  | 5 => txtC_5
  | 6 => txtC_6
  | 7 => txtC_7
  | 8 => txtC_8
  | 9 => txtC_9
  | 10 => txtC_10
  | 11 => txtC_11
  | 12 => txtC_12
  | 13 => txtC_13
  | 14 => txtC_14
  | 15 => txtC_15
  | 16 => txtC_16
  | 17 => txtC_17
  | _ => ""
  end.

(** constants.go:2327-4517 *)
Definition strPOSEIDON_M (t : nat) : string :=
  match t with
  | 2 => txtM_2
  | 3 => txtM_3
  | 4 => txtM_4
  | 5 => txtM_5
  | 6 => txtM_6
  | 7 => txtM_7
  | 8 => txtM_8
  | 9 => txtM_9
  | 10 => txtM_10
  | 11 => txtM_11
  | 12 => txtM_12
  | 13 => txtM_13
  | 14 => txtM_14
  | 15 => txtM_15
  | 16 => txtM_16
  | 17 => txtM_17
  | _ => ""
  end.

(** constants.go:4524-6694 *)
Definition strPOSEIDON_P (t : nat) : string :=
  match t with
  | 2 => txtP_2
  | 3 => txtP_3
  | 4 => txtP_4
  | 5 => txtP_5
  | 6 => txtP_6
  | 7 => txtP_7
  | 8 => txtP_8
  | 9 => txtP_9
  | 10 => txtP_10
  | 11 => txtP_11
  | 12 => txtP_12
  | 13 => txtP_13
  | 14 => txtP_14
  | 15 => txtP_15
  | 16 => txtP_16
  | 17 => txtP_17
  | _ => ""
  end.
