(* tests/data.npz: the content of all the files of the archive, in the order of the
   archive, as numbers of up to 32 bytes (the first byte after 0x1 is the first byte),
   and the tests which read it: tests/serialization.rs and tests/python/serialization.py.
   The results are computed when this file is compiled: [computed] is replaced by the value
   of the term, so that the computation is not repeated by other checkers of the compiled
   file, which have no virtual machine. *)
From Coq Require Import NArith Ascii.
From Verif Require Import Base Labels Array Block Tensor Npy Io PyIo.
Local Open Scope string_scope.
Local Open Scope list_scope.
Local Open Scope nat_scope.

Notation computed term := ltac:(let value := eval vm_compute in term in exact value) (only parsing).

(* the bytes of a number, the last ones first in the accumulator *)
Fixpoint bytes_of_positive (fuel : nat) (p : N) (rest : bytes) : bytes :=
  match fuel with
  | 0 => rest
  | S fuel =>
      if (p <=? 1)%N then rest
      else bytes_of_positive fuel (p / 256)%N (ascii_of_N (p mod 256) :: rest)
  end.
Definition bytes_of_words (words : list N) : bytes := flat_map (fun w => bytes_of_positive 33 w []) words.

Definition file_0 : list N := [0x1934e554d50590100b6007b276465736372273a205b282773706865726963616c;
  0x15f6861726d6f6e6963735f6c272c20273c693427292c20282763656e7465725f;
  0x173706563696573272c20273c693427292c2028276e65696768626f725f737065;
  0x163696573272c20273c693427295d2c2027666f727472616e5f6f72646572273a;
  0x12046616c73652c20277368617065273a202832372c292c207d20202020202020;
  0x1202020202020202020202020202020202020202020202020202020202020200a;
  0x10000000001000000010000000000000001000000060000000000000001000000;
  0x10800000000000000060000000100000000000000060000000600000000000000;
  0x10600000008000000000000000800000001000000000000000800000006000000;
  0x10000000008000000080000000100000001000000010000000100000001000000;
  0x10600000001000000010000000800000001000000060000000100000001000000;
  0x10600000006000000010000000600000008000000010000000800000001000000;
  0x10100000008000000060000000100000008000000080000000200000001000000;
  0x10100000002000000010000000600000002000000010000000800000002000000;
  0x10600000001000000020000000600000006000000020000000600000008000000;
  0x10200000008000000010000000200000008000000060000000200000008000000;
  0x108000000]%N.
Definition file_1 : list N := [0x1934e554d5059010076007b276465736372273a20273c6638272c2027666f7274;
  0x172616e5f6f72646572273a2046616c73652c20277368617065273a202831382c;
  0x120312c2033292c207d2020202020202020202020202020202020202020202020;
  0x1202020202020202020202020202020202020202020202020202020202020200a;
  0x1c80b026f613abd3fa4ccedb77ef395bf954cb40022039c3fcfee3ad3766fbf3f;
  0x1e9bb2e6e64b529bf83d7f44973019d3f21b5617aea7abf3f64c54fd6de0552bf;
  0x1e6d81eee876a9d3ff45bf3668881bc3f4413a44377d897bfea7ab4fe3797ab3f;
  0x1d50ab71a7529be3f9f5ca1fa4ef193bfa11c3251c73c953f0fc98a28a170be3f;
  0x1170fd630ca5f9fbfdf34d26a07e29a3f044f79d4e964bd3f04733374c2789abf;
  0x1de9fa4f62088983f989dec068f46bf3f1b3fd28a8e8b55bf54433e2f001c9d3f;
  0x1f3db0fba87a7be3f1652debe06a77bbfb26b50fff013a03f64a56100d7bbbc3f;
  0x15fc06260d3a095bffa67845d393ea93f63b2371254aebe3fb874f384446a8ebf;
  0x1ee38f42ccaec923fb88975b7d8e0be3ff0226e8c40999ebf764a30b3fcdc913f;
  0x17aa0338ed140bd3f9f6b5ccb97ef93bfffdd41d666cfa23ffcc77fcb5e56be3f;
  0x1e40f654346937cbf06db13d6141ea63f2a37293a67cabd3f6c60ccd042e779bf;
  0x1c8146ee04dd6a03fc0c0743d6db7bc3f4d2002dff8e8a2bf94a07e11c267a93f;
  0x1e35ece154f4ebe3f3c5f033842299abf652a91d31958963f9c6aa69f8c82be3f;
  0x1129bce4fd2659ebf67704c10d4a7a43f]%N.
Definition file_2 : list N := [0x1934e554d5059010076007b276465736372273a205b2827737472756374757265;
  0x1272c20273c693427292c20282763656e746572272c20273c693427295d2c2027;
  0x1666f727472616e5f6f72646572273a2046616c73652c20277368617065273a20;
  0x12831382c292c207d20202020202020202020202020202020202020202020200a;
  0x10000000004000000000000000500000000000000060000000000000007000000;
  0x10000000008000000000000000900000001000000040000000100000005000000;
  0x10100000006000000010000000700000001000000080000000100000009000000;
  0x10200000004000000020000000500000002000000060000000200000007000000;
  0x102000000080000000200000009000000]%N.
Definition file_3 : list N := [0x1934e554d5059010076007b276465736372273a205b282773706865726963616c;
  0x15f6861726d6f6e6963735f6d272c20273c693427295d2c2027666f727472616e;
  0x15f6f72646572273a2046616c73652c20277368617065273a2028312c292c207d;
  0x1202020202020202020202020202020202020202020202020202020202020200a;
  0x100000000]%N.
Definition file_4 : list N := [0x1934e554d5059010076007b276465736372273a205b28276e272c20273c693427;
  0x1295d2c2027666f727472616e5f6f72646572273a2046616c73652c2027736861;
  0x17065273a2028332c292c207d2020202020202020202020202020202020202020;
  0x1202020202020202020202020202020202020202020202020202020202020200a;
  0x1000000000100000002000000]%N.
Definition file_5 : list N := [0x1934e554d5059010076007b276465736372273a20273c6638272c2027666f7274;
  0x172616e5f6f72646572273a2046616c73652c20277368617065273a202837382c;
  0x120332c20312c2033292c207d2020202020202020202020202020202020202020;
  0x1202020202020202020202020202020202020202020202020202020202020200a;
  0x1961366efdd467fbf7809cdbdfd7796bfd1ebf6d6f6cb9bbfca78dd039e8e843f;
  0x12564734f1548a43f44d068597bef9cbf70fe839f4b3639bf00f940d11f3510bf;
  0x1cc37db8cf13740bfdfe534b615ce693f8d83e151d4ed893f8cb7c1c2cfa176bf;
  0x1d8c4dd2fa8cb73bf4654634402e493bf1a057fd88b5c813f2d1f7c16852c63bf;
  0x13cfefb661b4483bf3cd86cf5f9d0703fa1891dcf55fa6c3fc43556132680893f;
  0x1e6c979fed83a77bf6f0dcb39e96e76bf262af8b9c5bd93bf954927f1c1fb813f;
  0x18e90efba702d663fcbef92752884833f4e562f0746c771bfaedee66541154f3f;
  0x17f9976a6fbf769bf17e6a28390a1a33f420bde1e56d5313fb23b691154cc4dbf;
  0x1d9512be9a886863f603687bee7eef23ebc9c6ff4cea20fbf5b28ef1a52ea473f;
  0x1dfe534b615ce69bf8d83e151d4ed89bf8cb7c1c2cfa1763fd8c4dd2fa8cb733f;
  0x14654634402e4933f1a057fd88b5c81bf2d1f7c16852c633f3cfefb661b44833f;
  0x13cd86cf5f9d070bfcf4779490701653f8de673d4976e82bfb18552fb28bd63bf;
  0x1c30425167a2f76bff498adbb717d8ebf0e29bc8a3d056b3f8af880924606a2bf;
  0x11f67a344580b97bf00c4960704ea933fe00ec7b4ee013fbf25bece7c650216bf;
  0x18d46733d07cf2b3f924c795688f13b3f76ceeacf9fd5133f7126b2bd8c0f29bf;
  0x1a58fc7d0f9a0a03fb574bf37429b773fe547e8979fd38dbfeb09d8c37d824b3f;
  0x1bb59ef923f17973f8be417cd53177bbf2edf66a36f5521bf434dd0bb4a196dbf;
  0x1d22af5a4e911513f366cbdc620c7323f1ec0fd64e8857f3f39818fa6fa7d62bf;
  0x110d7e725cdca2c3ffbbdfa48e3604abf47ab279c40eb6a3fab21aedf4df6323f;
  0x11e8f26ee5a5f51bf2d3c50e87aba713fdf3358885dec193fce4c798205c037bf;
  0x19462a868993c583fa1891dcf55fa6cbfc4355613268089bfe6c979fed83a773f;
  0x16f0dcb39e96e763f262af8b9c5bd933f954927f1c1fb81bf8e90efba702d66bf;
  0x1cbef9275288483bf4e562f0746c7713fe00ec7b4ee013f3f25bece7c6502163f;
  0x18d46733d07cf2bbf924c795688f13bbf76ceeacf9fd513bf7126b2bd8c0f293f;
  0x1a58fc7d0f9a0a0bfb574bf37429b77bfe547e8979fd38d3fee315d1ba3a7653f;
  0x1433004ab1a177ebf58b8bde5ffc97fbf2c09bafff82f77bf83b1305b94888bbf;
  0x1c0a38c3ca54963bf045be8654b19a23fd3ad4f85b26c973f1b35c2a32b6b92bf;
  0x1e4269c454c5808bf02599313ecf1953f30b84656987076bf62f173241e1ae03e;
  0x1eb5f443686076dbf26f9d11a17af4d3f43301f5dd4bef23e10258c9ec3e580bf;
  0x10e1c2a2c4d47613f9933ef71b09e3e3fd40c404a4c215cbfd640767737de7f3f;
  0x168b422e2d9c0433fcbd43a2ea92562bf598aa69bfb8e843f433c76fd63d227bf;
  0x10139f75582e2453f6a3f187cfaca68bfeb09d8c37d824bbfbb59ef923f1797bf;
  0x18be417cd53177b3f2edf66a36f55213f434dd0bb4a196d3fd22af5a4e91151bf;
  0x1366cbdc620c732bf1ec0fd64e8857fbf39818fa6fa7d623fe4269c454c58083f;
  0x102599313ecf195bf30b846569870763f62f173241e1ae0beeb5f443686076d3f;
  0x126f9d11a17af4dbf43301f5dd4bef2be10258c9ec3e5803f0e1c2a2c4d4761bf;
  0x1744bd4123e24213f70d14928179fa03f4840fe83dada7abfc34a329183a9593f;
  0x1fb68bb5969ada4bf86f9763b9bde83bffea5a112fe90383fd5dfeb1aa39e59bf;
  0x1800b044efc3f45bf78806470fb6e3b3fb91668faa25a8a3f7a29be855a7a6ebf;
  0x164efad6ee097453f4e052f965cbe943fabdade6254fd77bfc73e89a4fdddf13e;
  0x1b7935a8e022a413fce0c4a3896d923bf90d15b0aaff12f3ffcb74f74422556bf;
  0x1e21e057291bf5dbf3c9b56c0f63f63bf046e0afeb7b08a3fe41599093aed913f;
  0x1be6a6b813fef16bfc5b751cd99cc3f3f08fa80f2ab5b453f78806470fb6e3bbf;
  0x1b91668faa25a8abf7a29be855a7a6e3f64efad6ee09745bf4e052f965cbe94bf;
  0x1abdade6254fd773fc73e89a4fdddf1beb7935a8e022a41bfce0c4a3896d9233f;
  0x1198af588d591933f3acb8711a3cc9b3fe76fa8ff7ddb90bf337376b6c4e383bf;
  0x1949f7b990d43893f58277f998cdd533f4225ac5dc5fa44bf80fbf34910bef63e;
  0x1ccd476512570333f17f8339b192493bfba7fa728a33e8dbf6f55e15d65188a3f;
  0x1295261bd423d853f086be292ab39803f81a43e89b7f47cbf386fd04ab589453f;
  0x1dbf30a0c1274403f33db9b6df05c3dbfaedee66541154fbf7f9976a6fbf7693f;
  0x117e6a28390a1a3bf420bde1e56d531bfb23b691154cc4d3fd9512be9a88686bf;
  0x1603687bee7eef2bebc9c6ff4cea20f3f5b28ef1a52ea47bf10d7e725cdca2cbf;
  0x1fbbdfa48e3604a3f47ab279c40eb6abfab21aedf4df632bf1e8f26ee5a5f513f;
  0x12d3c50e87aba71bfdf3358885dec19bfce4c798205c0373f9462a868993c58bf;
  0x19933ef71b09e3ebfd40c404a4c215c3fd640767737de7fbf68b422e2d9c043bf;
  0x1cbd43a2ea925623f598aa69bfb8e84bf433c76fd63d2273f0139f75582e245bf;
  0x16a3f187cfaca683f90d15b0aaff12fbffcb74f744225563fe21e057291bf5d3f;
  0x13c9b56c0f63f633f046e0afeb7b08abfe41599093aed91bfbe6a6b813fef163f;
  0x1c5b751cd99cc3fbf08fa80f2ab5b45bf17f8339b1924933fba7fa728a33e8d3f;
  0x16f55e15d65188abf295261bd423d85bf086be292ab3980bf81a43e89b7f47c3f;
  0x1386fd04ab58945bfdbf30a0c127440bf33db9b6df05c3d3f027ddcd57b3791bf;
  0x14a65530fc1d595bf4b553c4828e4ae3f083862cbafcf823f1d5f4153242c913f;
  0x1f434e391be54a23ffeb2444a378c403f46b413cc5831543fb6036e48311b44bf;
  0x18e1513929c127ebf6fe77ae07df697bfaeec2ca702ad843f6904d931555c833f;
  0x10a597459fd25a13fabcdcca1d3428cbf1193e527733f693fa4846af155967bbf;
  0x1e0d7d567446533bf0746e17dc4a97f3f09af232876468b3f368628c9f03f80bf;
  0x1f0cfbda01ba284bf370c5c931bc691bf61277077a22d853fe794dd1b3baf65bf;
  0x1aa685672efad72bf30eac7d1dd41663f9207e3bc7e7239bfd51fd29885a6843f;
  0x1e099117847b461bf76b84cee665c443fdca58c1fdf8590bf289972a9c4546c3f;
  0x14ef13f60c0813cbfa776e0b12222873f342fcd4435d563bf0746e17dc4a97fbf;
  0x109af232876468bbf368628c9f03f803ff0cfbda01ba2843f370c5c931bc6913f;
  0x161277077a22d85bfe794dd1b3baf653faa685672efad723f30eac7d1dd4166bf;
  0x14941ce56c42b833f210b35d6f7d165bf207cca51257584bf7ed23d0a3cb578bf;
  0x1488720bea88e85bf00c98025890a5f3f308abdf13c769dbf4a15e98930069abf;
  0x11aed072567d9913fc336ce80355e42bf3083eea8abcb2dbf70ca98c335e6333f;
  0x1ef99a266802b73bf3b717c63af185fbfc56788ea9dc4643fd0dd298db27c9b3f;
  0x158cb38ae464b863f2d61e15450c78dbf73c623a0e65356bf87fbb0cf84b2913f;
  0x1fbd2e19b5c4366bf0921816903de323f2576f0eeb2e86dbf28c3689c09d0423f;
  0x1e5e830febca74abfcc2c1ef89b20853fd096595afe935abf9fbe7786c22f333f;
  0x17e596a98369751bfa948fb02b44d723fb9a7cb8c4fea363fb02b5f035e0255bf;
  0x13bd0ae7c52dc753f9b098109e9e0183f8d3c007629cf36bff7a27554cabb573f;
  0x19207e3bc7e72393fd51fd29885a684bfe099117847b4613f76b84cee665c44bf;
  0x1dca58c1fdf85903f289972a9c4546cbf4ef13f60c0813c3fa776e0b1222287bf;
  0x1342fcd4435d5633fc336ce80355e423f3083eea8abcb2d3f70ca98c335e633bf;
  0x1ef99a266802b733f3b717c63af185f3fc56788ea9dc464bfd0dd298db27c9bbf;
  0x158cb38ae464b86bf2d61e15450c78d3ff4eef229cd5271bf185f582d904f8ebf;
  0x195407700c0677d3f4784cd5c40356fbfe48abb6d638c90bfea73a89ad7bc753f;
  0x13f46e966419c9b3f0769f430eafc9a3f87a38bc656ef92bf45ef151cbddf6a3f;
  0x17062c38b733f993f6f402330c08182bfc90b24a7355530bfbb208e806ab05ebf;
  0x16164a87acd7e463f73060d68bb3242bf1d209f03d61871bfa3d014387f10593f;
  0x173c623a0e653563f87fbb0cf84b291bffbd2e19b5c43663f0921816903de32bf;
  0x12576f0eeb2e86d3f28c3689c09d042bfe5e830febca74a3fcc2c1ef89b2085bf;
  0x1d096595afe935a3f45ef151cbddf6abf7062c38b733f99bf6f402330c081823f;
  0x1c90b24a73555303fbb208e806ab05e3f6164a87acd7e46bf73060d68bb32423f;
  0x11d209f03d618713fa3d014387f1059bfb23315ad14ce11bf2bba2878cd499d3f;
  0x1be016a7e825075bf6f4f065a1d9d5fbf3db50ab3f589a0bf09f01da0fdaf9dbf;
  0x1c3fa5f30548151bf347b2183dba2863f303d0247cdad7b3f6246e46fe2e15f3f;
  0x131ca4c713bca8b3f2b872a5d97c074bfc26d786ccd75683fd819be000b52953f;
  0x12af1be64a5d77fbf385a4f61740941bf3e7ad4873eb36dbfd31d437fc32d563f;
  0x1049ea45e4ed2043f8da560ad6a792ebfce858b4a535058bfc546530e4aac50bf;
  0x1467fc17d0d67783fc81a03d92e78a33f9881456f91c62c3f38ffed56d70e55bf;
  0x1181bb2f70ecd80bf6246e46fe2e15fbf31ca4c713bca8bbf2b872a5d97c0743f;
  0x1c26d786ccd7568bfd819be000b5295bf2af1be64a5d77f3f385a4f617409413f;
  0x13e7ad4873eb36d3fd31d437fc32d56bf6fd639d1f8f9953f66093c7f0ae1973f;
  0x134268eed04c390bfe844c924b91e8abf53854b8a3a898a3ff8803220b4fb553f;
  0x1496696602d71703fdc78e790364956bfe5d1fd9046d854bf09923baadafb93bf;
  0x19b482b8dd9f783bfd308872cbe25873f2cb0f33f161e903f5dae3077db1a803f;
  0x1b4c8653649ab82bf9051c0ec5b9272bfd0bd603fa38e62bfdc7720080583653f;
  0x19fbe7786c22f33bf7e596a983697513fa948fb02b44d72bfb9a7cb8c4fea36bf;
  0x1b02b5f035e02553f3bd0ae7c52dc75bf9b098109e9e018bf8d3c007629cf363f;
  0x1f7a27554cabb57bf049ea45e4ed204bf8da560ad6a792e3fce858b4a5350583f;
  0x1c546530e4aac503f467fc17d0d6778bfc81a03d92e78a3bf9881456f91c62cbf;
  0x138ffed56d70e553f181bb2f70ecd803f09923baadafb933f9b482b8dd9f7833f;
  0x1d308872cbe2587bf2cb0f33f161e90bf5dae3077db1a80bfb4c8653649ab823f;
  0x19051c0ec5b92723fd0bd603fa38e623fdc772008058365bfc060f278b2a493bf;
  0x16116ee0aa6a486bf6e3cb3c48d428d3fbd5483baf5dd8e3f8a88a57516ae893f;
  0x1a282ffdae688a13f5d2120bda34871bffec49719f4ef6fbf849136d6a8e970bf;
  0x11efc95d52ea872bfecd817f83135a2bfff003e5d56a4823f10ce590fb1b2873f;
  0x1d0b707f1578ea13f0130c123d4cc91bf9f092567f301663f88edf1dd95e567bf;
  0x170b6ededcb2e47bf8cad49a01761773f1f4f5f205e66893f1a9e1965d5867bbf;
  0x1e6f3075f71c680bffe82fc97993992bfb661425444c0833f914392b202f270bf;
  0x1075638dfee6882bf67bcb33a90f3733f8e5e0487b23c543f0f4d983ff6e2823f;
  0x1f6f343aea0bb6bbfb0fe4a391e4e66bfc51dcc310dd194bf5ece215125917e3f;
  0x1f6155e217417593f2143014ec86a873f6cf0f4b4593171bf2492e9d82a9063bf;
  0x181c76780738b8c3f5b58fe06e46f503fe5a7f11f828b45bf1089c93db76f6f3f;
  0x195e3e255291a323ff9aef155023515bf05c9711681f13e3f776975ff7bd1013f;
  0x18cad49a0176177bf1f4f5f205e6689bf1a9e1965d5867b3fe6f3075f71c6803f;
  0x1fe82fc979939923fb661425444c083bf914392b202f2703f075638dfee68823f;
  0x167bcb33a90f373bff610e3e8b252863f5eccf9c4debd73bf583e5beb47f999bf;
  0x1634cc1ab24c571bf87754417710892bfdc3100db1bec91bfd1956f4cfebe95bf;
  0x181e06a59bb51a4bfa40394f18363853f3c13deb5087864bf31abf2d3763063bf;
  0x19afb503213945e3f91d2bb0cb64569bf078dca4345b167bf2cf4781d8be0623f;
  0x13ce5f24c6a4c933f67b3604f9317923f2c70cda379d48cbf8e105ea10b305cbf;
  0x1717bb41b480d8d3f33b61de746bb51bfa1229b2ad58e423f4ed962f67c2073bf;
  0x157162ebc0d59373f5c68147e2b5554bfba60233dc1f4843ff1ae4184a89449bf;
  0x1f934af7137e24fbf51c948384608763f7ba261cd054a923fd15910c5f6da55bf;
  0x1f5e967957d347e3fd98b816ac812993f1539d3a83e9340bfcd9139aa5ae8663f;
  0x1aa65d7570804833f8e5e0487b23c54bf0f4d983ff6e282bff6f343aea0bb6b3f;
  0x1b0fe4a391e4e663fc51dcc310dd1943f5ece215125917ebff6155e21741759bf;
  0x12143014ec86a87bf6cf0f4b45931713f3c13deb50878643f31abf2d37630633f;
  0x19afb503213945ebf91d2bb0cb645693f078dca4345b1673f2cf4781d8be062bf;
  0x13ce5f24c6a4c93bf67b3604f931792bf2c70cda379d48c3f72b4e1cc80855dbf;
  0x1ecec52e5b7d590bf07bfcc0c7791743f7e3b53c4056a77bfd91cb1b8d3b893bf;
  0x1c3fd96db3bba813fd31d6c6be6ee943f8b19c7b91157a03f10f0b7cc548593bf;
  0x10ed953d043a4413f0ebea02a24e1973f1b7a5a9742ca7abf7e480bac17f917bf;
  0x1344a5186883970bfb733c1a2cc33523f80385763dc0411bffaf066e95f0967bf;
  0x1cc7b7fb231d8493f8e105ea10b305c3f717bb41b480d8dbf33b61de746bb513f;
  0x1a1229b2ad58e42bf4ed962f67c20733f57162ebc0d5937bf5c68147e2b55543f;
  0x1ba60233dc1f484bff1ae4184a894493f0ed953d043a441bf0ebea02a24e197bf;
  0x11b7a5a9742ca7a3f7e480bac17f9173f344a51868839703fb733c1a2cc3352bf;
  0x180385763dc04113ffaf066e95f09673fcc7b7fb231d849bfc89b864f1da72abf;
  0x1e2fe06ec96a39d3f4ecec1a5d01142bf5052956e3235603f0d001ccf6e8b99bf;
  0x1f7a6c95bd5f1a3bf2fb2dff44e3858bf822849590694833f000e16dda472823f;
  0x1ca1694599c884ebf88aceacdfc6e813f58bf4f9ce9614cbf24e2db26b1d95dbf;
  0x1e456bc951d0b913f75d0be3551bf5bbf5fbaadc238ba2f3f49f9e7d17a1d62bf;
  0x100ca0b16fe7d2d3f28a5284ffc9608bf00404dfdca65093ff3b5df089d6a79bf;
  0x13069f89095dc343fd0ed5773098c35bf460306662090a53f1410fe7b164712bf;
  0x1a8253dfdcee0123f5a608a4264e482bfca1694599c884e3f88aceacdfc6e81bf;
  0x158bf4f9ce9614c3f24e2db26b1d95d3fe456bc951d0b91bf75d0be3551bf5b3f;
  0x15fbaadc238ba2fbf49f9e7d17a1d623f00ca0b16fe7d2dbfe4d4b38ef4cd933f;
  0x1a69f8a0c4c78973fcc7d9950013b8dbf528f5d228dac83bfe8de049ca2c1863f;
  0x1d6cef527c04c6c3f227ee6c1fa38723f847832161182493f8cd1c48b91f264bf;
  0x19a75807139c294bfc3922a4b9b818dbfd781d4b6e2748b3f1c2604fbade27f3f;
  0x1c09de71e31a9763f889b6a61341675bf4f10d1fb283b71bf6a977417ff7d68bf;
  0x12c8e256d71ca663f2492e9d82a90633f81c76780738b8cbf5b58fe06e46f50bf;
  0x1e5a7f11f828b453f1089c93db76f6fbf95e3e255291a32bff9aef1550235153f;
  0x105c9711681f13ebf776975ff7bd101bff934af7137e24f3f51c94838460876bf;
  0x17ba261cd054a92bfd15910c5f6da553ff5e967957d347ebfd98b816ac81299bf;
  0x11539d3a83e93403fcd9139aa5ae866bfaa65d757080483bf28a5284ffc96083f;
  0x100404dfdca6509bff3b5df089d6a793f3069f89095dc34bfd0ed5773098c353f;
  0x1460306662090a5bf1410fe7b1647123fa8253dfdcee012bf5a608a4264e4823f;
  0x19a75807139c2943fc3922a4b9b818d3fd781d4b6e2748bbf1c2604fbade27fbf;
  0x1c09de71e31a976bf889b6a613416753f4f10d1fb283b713f6a977417ff7d683f;
  0x12c8e256d71ca66bfd9b552069c3f98bf4ecdbd38c24e743f70db0327ceb09a3f;
  0x13e61d15e4908793f58b3ff6e32cf903f893bc561f29aaf3f6e36333481eb73bf;
  0x188e5e86b91fc363f107957b24790673f]%N.
Definition file_6 : list N := [0x1934e554d5059010076007b276465736372273a205b282773616d706c65272c20;
  0x1273c693427292c202827737472756374757265272c20273c693427292c202827;
  0x161746f6d272c20273c693427295d2c2027666f727472616e5f6f72646572273a;
  0x12046616c73652c20277368617065273a202837382c292c207d2020202020200a;
  0x10000000000000000040000000000000000000000050000000000000000000000;
  0x10600000000000000000000000900000001000000000000000400000001000000;
  0x10000000005000000010000000000000006000000010000000000000007000000;
  0x10100000000000000090000000200000000000000040000000200000000000000;
  0x10500000002000000000000000600000002000000000000000700000002000000;
  0x10000000009000000030000000000000005000000030000000000000006000000;
  0x10300000000000000070000000300000000000000080000000300000000000000;
  0x10900000004000000000000000700000004000000000000000800000004000000;
  0x10000000009000000050000000000000004000000050000000000000005000000;
  0x10500000000000000060000000500000000000000070000000500000000000000;
  0x10800000005000000000000000900000006000000010000000400000006000000;
  0x10100000005000000060000000100000006000000070000000100000004000000;
  0x10700000001000000050000000700000001000000060000000700000001000000;
  0x10700000007000000010000000900000008000000010000000400000008000000;
  0x10100000005000000080000000100000006000000080000000100000007000000;
  0x10900000001000000050000000900000001000000060000000900000001000000;
  0x1070000000900000001000000080000000900000001000000090000000a000000;
  0x101000000070000000a00000001000000080000000a0000000100000009000000;
  0x10b00000001000000050000000b00000001000000070000000b00000001000000;
  0x1080000000b00000001000000090000000c00000002000000040000000c000000;
  0x102000000050000000c00000002000000060000000c0000000200000009000000;
  0x10d00000002000000040000000d00000002000000050000000d00000002000000;
  0x1060000000d00000002000000070000000d00000002000000090000000e000000;
  0x102000000040000000e00000002000000050000000e0000000200000006000000;
  0x10e00000002000000070000000f00000002000000050000000f00000002000000;
  0x1060000000f00000002000000070000000f00000002000000080000000f000000;
  0x10200000009000000100000000200000007000000100000000200000008000000;
  0x11000000002000000090000001100000002000000040000001100000002000000;
  0x10500000011000000020000000700000011000000020000000800000011000000;
  0x10200000009000000]%N.
Definition file_7 : list N := [0x1934e554d5059010076007b276465736372273a205b28276772616469656e745f;
  0x1646972656374696f6e272c20273c693427295d2c2027666f727472616e5f6f72;
  0x1646572273a2046616c73652c20277368617065273a2028332c292c207d202020;
  0x1202020202020202020202020202020202020202020202020202020202020200a;
  0x1000000000100000002000000]%N.
Definition file_8 : list N := [0x1934e554d5059010076007b276465736372273a205b282773706865726963616c;
  0x15f6861726d6f6e6963735f6d272c20273c693427295d2c2027666f727472616e;
  0x15f6f72646572273a2046616c73652c20277368617065273a2028312c292c207d;
  0x1202020202020202020202020202020202020202020202020202020202020200a;
  0x100000000]%N.
Definition file_9 : list N := [0x1934e554d5059010076007b276465736372273a20273c6638272c2027666f7274;
  0x172616e5f6f72646572273a2046616c73652c20277368617065273a202831382c;
  0x120312c2033292c207d2020202020202020202020202020202020202020202020;
  0x1202020202020202020202020202020202020202020202020202020202020200a;
  0x10a202a566748733fe37a60bc5fa5983f76f11209bd188b3fc06e85b38ebfa53f;
  0x172353bd3f1b1a13f51a35cfcda68893f7f81b29875d3a63f083399385b80a03f;
  0x11b77d7fa8141893f12f7a2daf521a73f084298a4511bab3f99986524f37b8d3f;
  0x1e038a2e69f99a63f24506b42162fa13ff24c79f381c9753febfc77d497fea53f;
  0x1feaaa0f3205ea63fbd9a4a82f52c923fa6214225f786643f08dc858fc033963f;
  0x125bb9504ad1c8e3f9454aa94c945a73f4ae3a568617fa13fbc1c1e62c167903f;
  0x18f5cc365fedea53fd3fad85efe03a23f084900539de2843f862fe5c0f9aca23f;
  0x1a474eab57ae4ad3f852591d3baf38e3f980e42a38fd7a83f3b3b950ea800a13f;
  0x1fe0234b25a3d713f7ed740acc8a9a43f8a848bcc07dba33fb6f2fd0c57cb933f;
  0x1615e9ddaac55753f45d323271122993f8907b70ef6948d3fa459e1e5b775a53f;
  0x10ba558cb9ce4a23fb6f2b0703692933f52789423ededa43fa8dd21b28623a13f;
  0x15ff67948e882853fcc967bf81ae1a13fd74c6882e46ea93f1e4fd7580a41933f;
  0x1754e8e31bc19a33fa8f9f4cf22b9a13f9328ff4e35037d3f8ce5dde6637ea63f;
  0x1d87491d27843a53fcccbbb0792da923f]%N.
Definition file_10 : list N := [0x1934e554d5059010076007b276465736372273a205b2827737472756374757265;
  0x1272c20273c693427292c20282763656e746572272c20273c693427295d2c2027;
  0x1666f727472616e5f6f72646572273a2046616c73652c20277368617065273a20;
  0x12831382c292c207d20202020202020202020202020202020202020202020200a;
  0x10000000004000000000000000500000000000000060000000000000007000000;
  0x10000000008000000000000000900000001000000040000000100000005000000;
  0x10100000006000000010000000700000001000000080000000100000009000000;
  0x10200000004000000020000000500000002000000060000000200000007000000;
  0x102000000080000000200000009000000]%N.
Definition file_11 : list N := [0x1934e554d5059010076007b276465736372273a205b282773706865726963616c;
  0x15f6861726d6f6e6963735f6d272c20273c693427295d2c2027666f727472616e;
  0x15f6f72646572273a2046616c73652c20277368617065273a2028312c292c207d;
  0x1202020202020202020202020202020202020202020202020202020202020200a;
  0x100000000]%N.
Definition file_12 : list N := [0x1934e554d5059010076007b276465736372273a205b28276e272c20273c693427;
  0x1295d2c2027666f727472616e5f6f72646572273a2046616c73652c2027736861;
  0x17065273a2028332c292c207d2020202020202020202020202020202020202020;
  0x1202020202020202020202020202020202020202020202020202020202020200a;
  0x1000000000100000002000000]%N.
Definition file_13 : list N := [0x1934e554d5059010076007b276465736372273a20273c6638272c2027666f7274;
  0x172616e5f6f72646572273a2046616c73652c20277368617065273a202836382c;
  0x120332c20312c2033292c207d2020202020202020202020202020202020202020;
  0x1202020202020202020202020202020202020202020202020202020202020200a;
  0x19ea3fed885df903f46ccf43505398b3fd54a9fb90f8d87bf5e33036c34158abf;
  0x1985599ed6c0a85bfc2873bfeeb33823f90db500820402f3f886171419c35293f;
  0x1eae72c142bcf25bf803a0c54e8dcf53eaa042eda4445503fe212d2ff79d7a43f;
  0x120933357eabae0be24fe1ab3c4e638bf5aee4fc2b8e58fbf4060bdab422a76be;
  0x114430defd57ed0be1a6a6060372125bfada61313fde490bfdb8c3ad1ad418dbf;
  0x15a80d4226ce89dbf4300992663198a3f892d3213a3d1853f30cd288899637b3f;
  0x1e463fbbf5a3d2fbf6ff7f891a5b128bf02a9463a3178353fbaae59fa456a983f;
  0x122b0642a57c190bf370e4cfff68056bf316c3bda3ccda33f63b97be6ac2d9bbf;
  0x1833f6c3e634062bf035f64ac4144ad3f364ad15eab15a4bf1fdedcdbb7f96abf;
  0x188455db79510833fbd3c3acd2e17953f4f72acff16b286bf076983045ec6683f;
  0x17ce77e554a687b3f0ca4e59c447e6dbf23f945ed5229713f757e7d9925fc823f;
  0x1608078c4076e74bfe87b86cec62d203fa0d6ce5f273f383fc940ae7d47f5a13f;
  0x1e008eb573b7a153ff086b00f0418303f6be3ba07ead6973f506adba9e55c053f;
  0x1a0e22ccc0802203fcb8322745ab6873f3bafd2317609a1bfd41f530151db72bf;
  0x18687910b742997bf45982fd85f64a5bf683ddd403a13943ffaa6500c15df91bf;
  0x102957743c36eafbf6c7b4bdf3f8d9e3f4c30bc6ba2036bbf2ebded5f888b9b3f;
  0x130a74d37c1ab93bf3458bd95fa5753bf4e9cb9b9d31da43fa83016165bbb9cbf;
  0x1027eab92fd405cbff3070c3cb996adbfc4d92a606221a53f2be5258164c7643f;
  0x1dc3f6942713d813f73360c41fc7f953f42d907697f1a86bf86e1eb4d274a653f;
  0x1ca5f7408dd8c7a3fb61015a3ab4b6bbfd37d386654bc6fbfd9752d99e8c983bf;
  0x1902d70741f58743f4424170bab4f2b3f0051350fa5e6e6befbc9f1ae4414a23f;
  0x1fcfac1e1cfb8213f00b6c86167b8ddbe82ed14747576973ffc2e48ea2fc111bf;
  0x10070940173c6cd3eb55e63058c8187bfb2459c2b7030a2bf9089ca51e3155dbf;
  0x1d1d10300cae597bf611c7afe2e84a5bf40356f5aff19963f8b938726f04892bf;
  0x1e7b3641a5f9baf3fa082ab535f2fa0bf449dc3554647703fdf6b9be3dbae7ebf;
  0x123e496917b8a96bf67f4c9844fd6853fb833f6ec20cc6d3f104d69f7eae3853f;
  0x188873e49f23475bf030bebd89d84323f5d56acae47354b3f09e4327fcd5b3abf;
  0x1793c2c7905c4a0bf7f52ea76a7e5973f90ce9ce903ef573f9b8e536c5432b13f;
  0x16a8634fee182a8bff22e1b087c8c68bf9d107660e603673fb7a38d46066760bf;
  0x161423325736d20bf0168ce42fd1b573fe652f2487f00673f714c5e37dbcf59bf;
  0x141ccaa130c92873f18c222a70176973f1c89c78cb8538abf4ea20a310113353f;
  0x1e344b301eff9443f8af35776f18937bfb536890b01e1a33fe4e2c639efec70bf;
  0x1abc4119b349a85bfc19930f6f612b5bf684823b3993b8d3f4eccb659a888953f;
  0x147c6b441daf66bbf9bf3d669e26c413f623c12443c0e4d3f0dbcdfe76e8981bf;
  0x124d57161bba494bfb37293848fb0853fca9927f5280176bfcff4339d11e789bf;
  0x17451c52121377b3fb847954bea3611bf035be090984324bf682ed675804a153f;
  0x16057d3c1cb18b3bf4be9a673911fab3ff95590a8d0056c3fb5592cb5dcaa5abf;
  0x1be6e04a31af0523fa54445acdd90133f4a1c26c222d4303fdc594cefdae627bf;
  0x13189d03dc1b1e8bee24ecf9ef949b53fb9feedc233cda0bf3188b7ae03b28cbf;
  0x137b07222e0ab7c3ff766d3480e89873f8766769864857bbfb894815ed00c29bf;
  0x1705a16c03915363f421d1c4e483412bfa4217fcd66e7463f5a199ee307ac8bbf;
  0x1a18d9aa461d3653f8865c2c310a34c3fc666c1629d4c91bf641dba75f4496b3f;
  0x1d10448c141fef03e23b73017e28734bf574df3d67731103f659244209bc050bf;
  0x128a38a9f2b2b5cbf327350ff1ef5503f9566f99b87f48abf30c8d1fd85a996bf;
  0x1ffe5eb4e07498b3fde1b754e133e3ebfe80cda860a6d49bf848bae12e19c3e3f;
  0x1bc99defbd07ea33fafc01503941e9bbf8a6ec386638c60bf343fc0b1ef1bb0bf;
  0x1dee162d1af68a63fd4e3d61e19596b3f9aafbcd349ce6dbf475fa79822bb643f;
  0x1df39c4b0de4c293faf7112be6954a3bfc7bb6e57a55ba53f60b1fe3a1b835bbf;
  0x13ce7b7833a41b33f1853ca08f16c73bf2613085ae57894bf866104dd07ba703f;
  0x1518a1568c79d57bfe5bd6630d7a747bf221f85c795d7863f9752a78d6466903f;
  0x160c91282ac2c85bffb8015a8663482bf9b5c96420f248abfab96386e29e0803f;
  0x1b474834be717703fb8061beeef1b773fd4a9308c3fd66dbfb0a81aa87c571e3f;
  0x1d8294a70cde0413fd58fab1bc3a6a43f70138cf407ff05bfc8bbb154e5eb29bf;
  0x1101e64c643f18dbfd845a2d12447f83e6083cd863e9c1c3f4284e4013286803f;
  0x17354d5c0441487bfe6a329f96af590bffaba4df62fb79ebf0e0d0ab0654a823f;
  0x18a23e9d7be8b8a3fca0e57b034227a3ffa1655702e3070bfc63c36e8608e77bf;
  0x19ab3b03d442172bf44ea9e17140c953fc046b86fcc278ebff3acd580ebd04cbf;
  0x12ab98c56bebc9b3f286c9c77d0de93bf17e42a87e1fc52bf3c77fbc4271fb13f;
  0x178186d51fd87a8bf7fa85b8a0f7167bf4e16c63c57f5843fd6417d6af076933f;
  0x11edf34148e7886bfce5516964a65693fa0373276ed95773fc94d0c937c3a6bbf;
  0x10f53a08a7a77783f5245927e10b9863f46d320d8823b7abfef5b84d9cdda54bf;
  0x1f012c5422c037d3fa25794b0820b9c3fa1c01eb3ce8f49bfbde46d75c4c7713f;
  0x18b3fbf98fc2f913f5964b06022b33fbfb3beabd5c10c663f22bcdebc8750853f;
  0x1acaf69d812399ebf64c6a486aa4787bf5775e69468d18fbfdf8db633e91c9ebf;
  0x122ca68f9c70e833f210fd6dbbd3189bf09cc444bec86b2bf39cb6d14ed78a13f;
  0x1f842bb7113b452bf8410e819324f963fe2d383e6e69c8ebfbe23f24b789754bf;
  0x101de0962ec64a73f21e9f4f9ff0ca0bfb3da5676d09765bf7339539385efaabf;
  0x149f9ef5a047ba23fe210cb429cdc683fd4232052af1c843f4629ab89c204943f;
  0x18426a24dd17686bf540dfb6736e0723f125dca17c2c9823fb183d78d551575bf;
  0x1d43c1f6b6bd370bf0d24b26367bf80bf3be562d72acb723f968c3c5bff48433f;
  0x1cc4519390ac25cbf4a9b9c0085e9a03fec4ce95d05eb3b3f9c2984a2cfd054bf;
  0x164c635c09b7b983faaf313aebc1728bf64660c75a8f6413f964dd74bd22085bf;
  0x16903e9dee87ba0bfc257bd96735167bf1601a9d5294e95bf4612c539c9f8a9bf;
  0x153e62ce22b02983f220af54d4c8390bf023565bd0a22ad3fbf43af470a269dbf;
  0x1005bcc3d5710663ff870e92c35a87bbf490de51136d096bf96acccc7573c853f;
  0x11771fc00ba30683f4b2112dd28f4833fa52c6836ea9272bffdc3bc61899356bf;
  0x19788ae7e559f72bf3343648aa855613f3530454915679fbf5c5b1dd519dc923f;
  0x1338ff08a04f5683ff0fbeecb67faac3f9f988dcf5567a1bf7d4dabcdbc0777bf;
  0x1a1f18fbe251094bfc096aee95119883fc731b9c4d9e35f3f9d12b514ebae563f;
  0x144bd74f0df2c653fb5d85151cd6458bf07a6922d1557883fa5ba813dd7b8963f;
  0x1c8cefe97f32c8abffbc5837d4f7c63bfccc71d1fb03072bff67df01c77f4643f;
  0x1a51d9af11973a23f40a491eb03e8543f4c955e40ff6c88bf42b6b15b9c49b2bf;
  0x1a02f8398ffdd603fec45048d237d973fa0365c44e8e8973f38ba216b3cc566bf;
  0x106add844061e7bbf94145108cc0943bf9c6e30532679613f740ae2cf21d682bf;
  0x1c431cebd552b29bf4f1aec2faa19473f9a53ca3308e768bf4bf79cc69d0be9be;
  0x1b1f4d2b78dfc063f93e71350a6c728bf11f6d410c6ff88bf6be6e4e13aeb93bf;
  0x127d45913488c883f7c5ea87abcd779bf92712f264e9784bf5a0047c65860793f;
  0x12e916812d5e011bffce319ad7b7d1cbf606bd7cb3c8e113f4182c1364f9bb3bf;
  0x1039f1e956741ad3f3b1c03202aa1613f301896a92832783f95c827a8350d72bf;
  0x14fe60fed8ac125bf0e057f48453974bf06e9a0f9192d6e3f52791670322f223f;
  0x12cc3ec905be1b63fb7325f895c63a4bf8421f196e13c74bfd0be05f87377433f;
  0x1389444574e2c8c3fb5aef2a9907d68bfcef5ab6b4e8d743fb965175320a56dbf;
  0x1783b722f5475f1be47f8caa3128f593f49ea2e9c456385bf1ac5e4fd402f003f;
  0x1b7bcd65f83075e3f32be4fd2f12089bf8b876fedf103033f1eb2d7237df42bbf;
  0x1b19e12c49464573fd223b78fafb3d1be201031b7bb2b61bf2fc49e8f857573bf;
  0x1a55dad16c4be643f70dfd2a241b384bf59793476737597bf72e55ab45e02893f;
  0x1026df54bf923593fa8acc899a67d6c3f5facaef8b55f5ebf8d070c445b2a973f;
  0x10394fd87e0f08ebf68e321cc94b358bfeaf3b09209efb0bfa7ffc50e179ea63f;
  0x1315d602c7b0e723fa78dcb88c9ab903f17f25277444486bf987bd096c5c651bf;
  0x10d9562f7d49d96bf32f0fd7574079f3f0bfe27696d4b51bfe5f48bb9530db33f;
  0x1b64d5f7c836c82bfc9413c1e500e91bf13354323200692bf2ee6bc709070783f;
  0x18e6f879f171c683fc661b2f5a5ca8f3f19fbb90520a5863f3ba091cd4c0b85bf;
  0x14918b43bc8a98fbf6822cff5b68d86bf28c3e66a8bf5843f9e85aded508a673f;
  0x1e529b30d85c4603fb7fa28c41f2a5fbf0e854303f50b41bf5105015b7f876c3f;
  0x1def4dcfd5e4ea33fc0160e7fb5812f3f45d199a35d5d5abf6765050b62d791bf;
  0x1a0c50702c07111bfeb495b90db313d3f8fc5afefa7c1733f1f3766771a7e103f;
  0x1afffb269fa222ebf8ba07e993efd4c3fdf15867f409ebcbebed84d759125da3e;
  0x134b0800db926f9becf7ea4f72046d13e3a23d62f7b90efbebc9601ead45c0e3f;
  0x1e3f56cdae2da8ebf6e70d3f2734e8dbfa20ebd8901ff9cbf1fdcbb57a62c8f3f;
  0x1d6b213f81dd6893ffc8f550f988b7d3fb01919fe650767bfffbc8e04304b64bf;
  0x11d14f350b36768bf01de99e1faa38a3fd1d61b61eb3682bf6deff5b2a11649bf;
  0x18c82f32d9caa933fb3f9b5df78e48abf40a64b19488552bfb68dd73c9eadb13f;
  0x12b9a0436762ca8bff29f33dcf1a570bf900379576b07823f3c9e9c487ec6933f;
  0x199b33111ea5985bfbfc577b2058a573fc9ec3b17bcd1693f458b7ce173e05bbf;
  0x131a6f2aa1a5f783f0893c7f674bb8a3f42cc85baccdc7cbf1c88fa0339ff5fbf;
  0x14dc5b66d4331873f4b2deb5777534c3fd9b6c663d19d54bf8064450b11e37d3f;
  0x15ce295ef4e40423f84feb13b874e4cbf19abffac8484743f5774ea67270f393f;
  0x146c8498cbf5594bf7a15ea4eaa4396bfbb5fe2b61c26853f7a93de725fd993bf;
  0x10431115105fa653f2ba07e41caa2623f1c540fd9f2fab2bf0c8065c510da9d3f;
  0x177621d10e6f8853f4f4a396382a29d3f747e4a15bf0594bf9d25480818c95dbf;
  0x15935174142e1a33f8d6cae8c02dd9abf52dbc57924fb63bfdbf6e581887dabbf;
  0x15f85e01ed692a23f804e756253a16b3f7ab768a9b5ca7d3fde1af1ffb1d3963f;
  0x177c6a141a0ca85bf3d5daddea3bf613fd463d23fce327b3fab869240f9f669bf;
  0x1eef53225cb4665bf64746e7c694d80bf73d80a9336206f3ff94c7e628496493f;
  0x155f50e637c6165bf899e9d40d526a03f57f3f80374f1413f6e6b4ae566fc5dbf;
  0x16112101dfba6963f9418c7b26ac130bf8a7f0bdb4e004c3f9f9898d9262785bf;
  0x14bb553f8f1f0a2bfb0df5e22afe120bf7cd7e5dfc88b93bffaee114f0245a5bf;
  0x14f7a0e6b15f0953f2206c565b7e890bf6bb49e0978f3ac3f882c62f6f9de9dbf;
  0x1883be27011db693fe0699814680970bf6ab4e9681c5b96bf6ad3ce2e4cb6813f;
  0x158d1b5b91e4a603fa6d5160453b5863f9293c08ac5fd71bfce20dc11252651bf;
  0x13a0c92540ce877bfd5a2df49c8f0623f9a3f46283d5d9bbf5c99c9afe0cc903f;
  0x12f722d89c554643fb3cac018a1b4ad3f9b0a06d7df3ca2bf2a9531bc1b1276bf;
  0x166cf7112bf6398bf855d2a5cb7f28d3f894f22eefe1e623fc1fe9a90b56c323f;
  0x12cdb91e1e6ee583f842a0a8119eb43bfe2e9c613ae74723f09c50736b0f9983f;
  0x1d6849771b7f383bf2336c869d54452bf00d8ceaaf0b878bf208a4dc3fdbf633f;
  0x117ee2957e4159f3fd8ea37586afa6f3f4e8d09f9cb8c85bf82826a63ec83b0bf;
  0x100ad72fcfab2223f9a4c880ad4fd933fd5142cba6e9a9a3fa0ade771e38866bf;
  0x13ebea77de2677cbfc3896d31655a73bf46686583059993bf0d453ad46c10813f;
  0x1ad7a2dde3b4870bfb8b19f2fec7c90bf566f368a7db67c3fda94217f3e8f2fbf;
  0x1600341c35ef54fbff4a76679b0d33b3fd7269c870b2bb1bf5a13614092e0a53f;
  0x1e18860320a6b763fbb026be1705e8bbfaccd17532070813fde4359517fde513f;
  0x1d524b32548d88bbf1b2ea8b7c1bd813fca80760f0c2e523f73ffb2dab160b23f;
  0x16ebe5cfd1e2898bf7e896aedf1458cbf09e0406847c1913f882b4f1870137f3f;
  0x1276046af0e9780bf28abaf1f85568c3fca3be896d77c7fbfc72ad02df82259bf;
  0x19be2ee3232e53e3f30e160fa33f38abfdd89e0caa676673f7b531408faf7443f;
  0x12139ce647e4a92bff296cdd46fd96f3f79b34d86ab7107bfed0946ec4373543f;
  0x1679af252facd31bf3c9e9c6d68d5fcbecc4cad50e44a10bf263291495963013f;
  0x1de7739243c4085bf77af36bc0c0498bffead9c2474a1893fa0e29e666aa6553f;
  0x1ef02af608677683f97b8ce8db11c5abfb2c1b48c7f6ca53f7415079180b39ebf;
  0x13a1fd933a1485dbf482d33b6898dafbfbcfe1515b79ba63f3a2c11337f90653f;
  0x10782f2cb428c823facced4f271947abf5cd337d4485a39bfe3eb0c44afa6a5bf;
  0x1ac1944b9b21ea63f117e342cc72f52bff99c906bdc44b23f00a73849184767bf;
  0x1642f4af3f77d93bfa810406d9e2985bf7395d78ebb77623f04aacc2b6173623f]%N.
Definition file_14 : list N := [0x1934e554d5059010076007b276465736372273a205b282773616d706c65272c20;
  0x1273c693427292c202827737472756374757265272c20273c693427292c202827;
  0x161746f6d272c20273c693427295d2c2027666f727472616e5f6f72646572273a;
  0x12046616c73652c20277368617065273a202836382c292c207d2020202020200a;
  0x10000000000000000010000000000000000000000020000000000000000000000;
  0x10400000001000000000000000100000001000000000000000200000001000000;
  0x10000000003000000010000000000000005000000020000000000000001000000;
  0x10200000000000000020000000200000000000000030000000200000000000000;
  0x10600000003000000000000000100000003000000000000000200000003000000;
  0x10000000003000000030000000000000007000000040000000000000002000000;
  0x10400000000000000030000000400000000000000080000000500000000000000;
  0x10100000005000000000000000200000005000000000000000300000005000000;
  0x10000000009000000060000000100000001000000060000000100000002000000;
  0x10600000001000000040000000700000001000000010000000700000001000000;
  0x10200000007000000010000000300000007000000010000000500000008000000;
  0x10100000001000000080000000100000002000000080000000100000003000000;
  0x10800000001000000060000000900000001000000010000000900000001000000;
  0x1020000000900000001000000030000000900000001000000070000000a000000;
  0x101000000010000000a00000001000000020000000a0000000100000003000000;
  0x10a00000001000000080000000b00000001000000010000000b00000001000000;
  0x1020000000b00000001000000030000000b00000001000000090000000c000000;
  0x102000000010000000c00000002000000020000000c0000000200000003000000;
  0x10c00000002000000040000000d00000002000000010000000d00000002000000;
  0x1020000000d00000002000000030000000d00000002000000050000000e000000;
  0x102000000010000000e00000002000000020000000e0000000200000003000000;
  0x10e00000002000000060000000f00000002000000010000000f00000002000000;
  0x1020000000f00000002000000030000000f000000020000000700000010000000;
  0x10200000002000000100000000200000003000000100000000200000008000000;
  0x11100000002000000010000001100000002000000020000001100000002000000;
  0x103000000110000000200000009000000]%N.
Definition file_15 : list N := [0x1934e554d5059010076007b276465736372273a205b28276772616469656e745f;
  0x1646972656374696f6e272c20273c693427295d2c2027666f727472616e5f6f72;
  0x1646572273a2046616c73652c20277368617065273a2028332c292c207d202020;
  0x1202020202020202020202020202020202020202020202020202020202020200a;
  0x1000000000100000002000000]%N.
Definition file_16 : list N := [0x1934e554d5059010076007b276465736372273a205b282773706865726963616c;
  0x15f6861726d6f6e6963735f6d272c20273c693427295d2c2027666f727472616e;
  0x15f6f72646572273a2046616c73652c20277368617065273a2028312c292c207d;
  0x1202020202020202020202020202020202020202020202020202020202020200a;
  0x100000000]%N.
Definition file_17 : list N := [0x1934e554d5059010076007b276465736372273a20273c6638272c2027666f7274;
  0x172616e5f6f72646572273a2046616c73652c20277368617065273a202831382c;
  0x120312c2033292c207d2020202020202020202020202020202020202020202020;
  0x1202020202020202020202020202020202020202020202020202020202020200a;
  0x1cfa954bc1b9caa3fc326c6bc474a7d3f75cf8c9f4c8d6fbfdd8745ac7fc45d3f;
  0x13f751a50763f963faabae98ff731803feaf894d46734603f119031dbb983963f;
  0x1a15ad175a8bc7f3f65942a006768183fc216919c826336bf50f0ee93cf345c3f;
  0x100000000000000000000000000000000000000000000000008cc1358bab83fbf;
  0x15ea6b9985bd18e3fba9cd6ae39ce863f322ef7c9c6bea13f3993cf8ab8d9933f;
  0x177e12f6e83d268bfdc4ef5518c9a603fbda84942ad97963f93e375870e8b7f3f;
  0x1834f99edf91a4a3fc8f864b4412a943f593be0ca9a87823f0a0d46e7ea97193f;
  0x1edef37b74f7837bfd28d01e0ede25d3f00000000000000000000000000000000;
  0x10000000000000000b877f9a33d244dbff7734911d766823f8b7e5e5ab7b68a3f;
  0x1a29b3f8b6df1a83fe61c5cd9e7de833f52d37971c84d6fbf6ad5828bd3d9613f;
  0x19e31200d28d4963ff9e8990da2f27e3f08d2d94182b95e3ff32cff769858963f;
  0x11c47148a6313803f2e53530c8779123ff6b6d31ff7f530bff96920a30b47543f;
  0x1000000000000000000000000000000000000000000000000eeb9f5a20241543f;
  0x10b0e6f27ed28953fc9e7db2e7b75813f]%N.
Definition file_18 : list N := [0x1934e554d5059010076007b276465736372273a205b2827737472756374757265;
  0x1272c20273c693427292c20282763656e746572272c20273c693427295d2c2027;
  0x1666f727472616e5f6f72646572273a2046616c73652c20277368617065273a20;
  0x12831382c292c207d20202020202020202020202020202020202020202020200a;
  0x10000000004000000000000000500000000000000060000000000000007000000;
  0x10000000008000000000000000900000001000000040000000100000005000000;
  0x10100000006000000010000000700000001000000080000000100000009000000;
  0x10200000004000000020000000500000002000000060000000200000007000000;
  0x102000000080000000200000009000000]%N.
Definition file_19 : list N := [0x1934e554d5059010076007b276465736372273a205b282773706865726963616c;
  0x15f6861726d6f6e6963735f6d272c20273c693427295d2c2027666f727472616e;
  0x15f6f72646572273a2046616c73652c20277368617065273a2028312c292c207d;
  0x1202020202020202020202020202020202020202020202020202020202020200a;
  0x100000000]%N.
Definition file_20 : list N := [0x1934e554d5059010076007b276465736372273a205b28276e272c20273c693427;
  0x1295d2c2027666f727472616e5f6f72646572273a2046616c73652c2027736861;
  0x17065273a2028332c292c207d2020202020202020202020202020202020202020;
  0x1202020202020202020202020202020202020202020202020202020202020200a;
  0x1000000000100000002000000]%N.
Definition file_21 : list N := [0x1934e554d5059010076007b276465736372273a20273c6638272c2027666f7274;
  0x172616e5f6f72646572273a2046616c73652c20277368617065273a202833302c;
  0x120332c20312c2033292c207d2020202020202020202020202020202020202020;
  0x1202020202020202020202020202020202020202020202020202020202020200a;
  0x1d1d23deca464b43f2735ddfb994cb0bfdb6f0733a2a920bf650f5d612638843f;
  0x19756da160a2980bf9df327534785f0be12013f151f5849bf9c49440ea241443f;
  0x13178f56940b5b43ed1d23deca464b4bf2735ddfb994cb03fdb6f0733a2a9203f;
  0x1650f5d61263884bf9756da160a29803f9df327534785f03e12013f151f58493f;
  0x19c49440ea24144bf3178f56940b5b4be2dcb88ec82c552bfceda7e0a37195fbf;
  0x13dadb20b6ed7523fecf19537dbdd883f4ff2765d1b99943fb1d2d8c597f588bf;
  0x183feaac10f4c763f5e4716503a78823fb02d5069586176bf2dcb88ec82c5523f;
  0x1ceda7e0a37195f3f3dadb20b6ed752bfecf19537dbdd88bf4ff2765d1b9994bf;
  0x1b1d2d8c597f5883f83feaac10f4c76bf5e4716503a7882bfb02d50695861763f;
  0x1c42193ef84d750bf29e23e6511845abf0d117128196d503fe18eb8fec9a5893f;
  0x1495f1f289930943f751be9dbb90389bfd5c8acd590f977bfb475f81380df82bf;
  0x1f12b23921262773fc42193ef84d7503f29e23e6511845a3f0d117128196d50bf;
  0x1e18eb8fec9a589bf495f1f28993094bf751be9dbb903893fd5c8acd590f9773f;
  0x1b475f81380df823ff12b2392126277bff70c59b484604ebfe0010bdb7cb86b3f;
  0x18c6e73d0874e95bfc603008a1c1c4b3fbe2b4bc938bd68bfe22c78b6dd03933f;
  0x11191b20a42b6f03eefcef6ef46800ebfb2b6a8ffa071373ff70c59b484604e3f;
  0x1e0010bdb7cb86bbf8c6e73d0874e953fc603008a1c1c4bbfbe2b4bc938bd683f;
  0x1e22c78b6dd0393bf1191b20a42b6f0beefcef6ef46800e3fb2b6a8ffa07137bf;
  0x1832bc960d50270bfa1e25199833e98bf2c02a529aec7823f118de68e0ef656bf;
  0x1ff8766f4516281bf75bff9a699ee6a3f08303745b53a20bf81ef65c31e9348bf;
  0x19d3647c03709333f832bc960d502703fa1e25199833e983f2c02a529aec782bf;
  0x1118de68e0ef6563fff8766f45162813f75bff9a699ee6abf08303745b53a203f;
  0x181ef65c31e93483f9d3647c0370933bfb7abcca96c9bac3fe220a12d8a1ca1bf;
  0x1ef6e6c48dc0077bf53e2bca224dc793f88d61bd4bcef6ebf8b46b6c357cb44bf;
  0x1e91f430f09c6a23faea1ac05817596bfc69deacc30316ebfb7abcca96c9bacbf;
  0x1e220a12d8a1ca13fef6e6c48dc00773f53e2bca224dc79bf88d61bd4bcef6e3f;
  0x18b46b6c357cb443fe91f430f09c6a2bfaea1ac058175963fc69deacc30316e3f;
  0x10fc2ea611dbf59bfb4cb4885f4f663bffb564ba394e6583f9faa49f29525883f;
  0x15c9bd3c364b9923fb3b1b16e815a87bfc78ce81fa8577e3f011cde474887873f;
  0x1b6d45b6678587dbf0fc2ea611dbf593fb4cb4885f4f6633ffb564ba394e658bf;
  0x19faa49f2952588bf5c9bd3c364b992bfb3b1b16e815a873fc78ce81fa8577ebf;
  0x1011cde47488787bfb6d45b6678587d3f5be2efa6ed054dbf3fd29ee6c38b61bf;
  0x1778f702ec23f523f88416c466d1b833f905f41183a1a973f62e0db8a380788bf;
  0x131f3af3d93ae69bfa01a498e520d7fbf4a6664e7ee25703f5be2efa6ed054d3f;
  0x13fd29ee6c38b613f778f702ec23f52bf88416c466d1b83bf905f41183a1a97bf;
  0x162e0db8a3807883f31f3af3d93ae693fa01a498e520d7f3f4a6664e7ee2570bf;
  0x11abaefbdf5b44ebf71bf44ef70fc6b3f24bfd3d3f6fa95bf0ad77cd6d1d94a3f;
  0x155bfe929c47868bfbe599ca55b38933f9800dc95eef91bbff1db9db5597f393f;
  0x16da7f68f970664bf1abaefbdf5b44e3f71bf44ef70fc6bbf24bfd3d3f6fa953f;
  0x10ad77cd6d1d94abf55bfe929c478683fbe599ca55b3893bf9800dc95eef91b3f;
  0x1f1db9db5597f39bf6da7f68f9706643fe260761343cc363fe84d318e11bf95bf;
  0x1dd2ac46fb5e8743f6fedf250fa95203f62273b2a45a47fbfe106a3955e6c5e3f;
  0x15ab1c3cf33a10cbf53502cec254f6b3f2a7bfc42f4414abfe260761343cc36bf;
  0x1e84d318e11bf953fdd2ac46fb5e874bf6fedf250fa9520bf62273b2a45a47f3f;
  0x1e106a3955e6c5ebf5ab1c3cf33a10c3f53502cec254f6bbf2a7bfc42f4414a3f;
  0x114faa927107db23fbcf354f81c66acbf174fe9518c5654bf3e714403e0b3563f;
  0x15e55fc48996f51bf49e6f93048f9f8be5e89453b5d239f3fd9b0369d1dea97bf;
  0x1e19d4c9a662041bf14faa927107db2bfbcf354f81c66ac3f174fe9518c56543f;
  0x13e714403e0b356bf5e55fc48996f513f49e6f93048f9f83e5e89453b5d239fbf;
  0x1d9b0369d1dea973fe19d4c9a6620413fac83986d33c855bfda3f1452ad2060bf;
  0x12c140854d988543f7dd1c094bfb8873f5d0ca6705390913fda8eee78f55c86bf;
  0x1b8bd95f70596813fcc989089b00a8a3f7d4c77a8309480bfac83986d33c8553f;
  0x1da3f1452ad20603f2c140854d98854bf7dd1c094bfb887bf5d0ca670539091bf;
  0x1da8eee78f55c863fb8bd95f7059681bfcc989089b00a8abf7d4c77a83094803f;
  0x1e4142848a7aa3b3faa6d67c2717e463fff80046a5f7a3bbfc3e12ca187208a3f;
  0x18fd7df12023e953f50d5078beff289bf70801eefa08072bffa8e12b616167ebf;
  0x18c693b175760723fe4142848a7aa3bbfaa6d67c2717e46bfff80046a5f7a3b3f;
  0x1c3e12ca187208abf8fd7df12023e95bf50d5078beff2893f70801eefa080723f;
  0x1fa8e12b616167e3f8c693b17576072bfa0ec9d91b9534bbfd1ecdf1d3e0d693f;
  0x19f960a2da56691bfa3c0c56610d64a3f8fcb14700b9a68bffa0134eba016913f;
  0x1bf01176bc3b921bf31a34ff8ef3f403f82008d72fe9266bfa0ec9d91b9534b3f;
  0x1d1ecdf1d3e0d69bf9f960a2da566913fa3c0c56610d64abf8fcb14700b9a683f;
  0x1fa0134eba01691bfbf01176bc3b9213f31a34ff8ef3f40bf82008d72fe92663f;
  0x128b9230fbd8d85bf15f6cb7099d195bfaa9835d87251883f6a931f40f63171bf;
  0x108ee49a7196881bfaac1e3be8f66733f2c2fb3f7645d5a3fc2023e2b67b06a3f;
  0x19d3d65ea13bf5dbf28b9230fbd8d853f15f6cb7099d1953faa9835d8725188bf;
  0x16a931f40f631713f08ee49a71968813faac1e3be8f6673bf2c2fb3f7645d5abf;
  0x1c2023e2b67b06abf9d3d65ea13bf5d3f]%N.
Definition file_22 : list N := [0x1934e554d5059010076007b276465736372273a205b282773616d706c65272c20;
  0x1273c693427292c202827737472756374757265272c20273c693427292c202827;
  0x161746f6d272c20273c693427295d2c2027666f727472616e5f6f72646572273a;
  0x12046616c73652c20277368617065273a202833302c292c207d2020202020200a;
  0x10000000000000000000000000000000000000000040000000100000000000000;
  0x10000000001000000000000000500000002000000000000000000000002000000;
  0x10000000006000000030000000000000000000000030000000000000007000000;
  0x10500000000000000000000000500000000000000090000000600000001000000;
  0x10000000006000000010000000400000007000000010000000000000007000000;
  0x10100000005000000080000000100000000000000080000000100000006000000;
  0x10900000001000000000000000900000001000000070000000b00000001000000;
  0x1000000000b00000001000000090000000c00000002000000000000000c000000;
  0x102000000040000000d00000002000000000000000d0000000200000005000000;
  0x10e00000002000000000000000e00000002000000060000000f00000002000000;
  0x1000000000f000000020000000700000011000000020000000000000011000000;
  0x10200000009000000]%N.
Definition file_23 : list N := [0x1934e554d5059010076007b276465736372273a205b28276772616469656e745f;
  0x1646972656374696f6e272c20273c693427295d2c2027666f727472616e5f6f72;
  0x1646572273a2046616c73652c20277368617065273a2028332c292c207d202020;
  0x1202020202020202020202020202020202020202020202020202020202020200a;
  0x1000000000100000002000000]%N.
Definition file_24 : list N := [0x1934e554d5059010076007b276465736372273a205b282773706865726963616c;
  0x15f6861726d6f6e6963735f6d272c20273c693427295d2c2027666f727472616e;
  0x15f6f72646572273a2046616c73652c20277368617065273a2028312c292c207d;
  0x1202020202020202020202020202020202020202020202020202020202020200a;
  0x100000000]%N.
Definition file_25 : list N := [0x1934e554d5059010076007b276465736372273a20273c6638272c2027666f7274;
  0x172616e5f6f72646572273a2046616c73652c20277368617065273a2028392c20;
  0x1312c2033292c207d202020202020202020202020202020202020202020202020;
  0x1202020202020202020202020202020202020202020202020202020202020200a;
  0x19f8dac0ca9c3b63f81bfcc4dcf59b43f2e9949c91ff8953f9b3e78af909fa83f;
  0x1f6df24445310b83ffc6fc4212ad3a33fa183f401ae47b63f28a4c5a04059a83f;
  0x1238e5909d1408f3faf95075e8353b63fd9272850da4ab23fe8721a3abbd1983f;
  0x1e6aa6fac47d5a43fe35aeef18f35ba3f17f54ceecc3da33f4c89558a9d8fb63f;
  0x114fb1f1c965ca83ff447889a9c2e923ff242192458cab53f30ecf0f1196db43f;
  0x16c9fd80da318973ffca38fc86e89a33fa7f95525f6fab73ff856fccbab56a63f;
  0x1578f7752bbb4b43fff5b6d078c34a83f5d09cbaa94b4963f]%N.
Definition file_26 : list N := [0x1934e554d5059010076007b276465736372273a205b2827737472756374757265;
  0x1272c20273c693427292c20282763656e746572272c20273c693427295d2c2027;
  0x1666f727472616e5f6f72646572273a2046616c73652c20277368617065273a20;
  0x128392c292c207d2020202020202020202020202020202020202020202020200a;
  0x10000000001000000000000000200000000000000030000000100000001000000;
  0x10100000002000000010000000300000002000000010000000200000002000000;
  0x10200000003000000]%N.
Definition file_27 : list N := [0x1934e554d5059010076007b276465736372273a205b282773706865726963616c;
  0x15f6861726d6f6e6963735f6d272c20273c693427295d2c2027666f727472616e;
  0x15f6f72646572273a2046616c73652c20277368617065273a2028312c292c207d;
  0x1202020202020202020202020202020202020202020202020202020202020200a;
  0x100000000]%N.
Definition file_28 : list N := [0x1934e554d5059010076007b276465736372273a205b28276e272c20273c693427;
  0x1295d2c2027666f727472616e5f6f72646572273a2046616c73652c2027736861;
  0x17065273a2028332c292c207d2020202020202020202020202020202020202020;
  0x1202020202020202020202020202020202020202020202020202020202020200a;
  0x1000000000100000002000000]%N.
Definition file_29 : list N := [0x1934e554d5059010076007b276465736372273a20273c6638272c2027666f7274;
  0x172616e5f6f72646572273a2046616c73652c20277368617065273a202835392c;
  0x120332c20312c2033292c207d2020202020202020202020202020202020202020;
  0x1202020202020202020202020202020202020202020202020202020202020200a;
  0x1cf9665386cf0ae3f00f10ea58a98adbf2cfdfde45fd047bf3d5469e588dab13f;
  0x146d59a963932b2bfd82e69d4dd4e693fc0fab16ad71c18bfb30d75821f8b663f;
  0x1131351fa67b254bf9ea3fed885df90bf46ccf43505398bbfd54a9fb90f8d873f;
  0x15e33036c34158a3f985599ed6c0a853fc2873bfeeb3382bf90db500820402fbf;
  0x1886171419c3529bfeae72c142bcf253fbaae59fa456a98bf22b0642a57c1903f;
  0x1370e4cfff680563f316c3bda3ccda3bf63b97be6ac2d9b3f833f6c3e6340623f;
  0x1035f64ac4144adbf364ad15eab15a43f1fdedcdbb7f96a3f2ebded5f888b9bbf;
  0x130a74d37c1ab933f3458bd95fa57533f4e9cb9b9d31da4bfa83016165bbb9c3f;
  0x1027eab92fd405c3ff3070c3cb996ad3fc4d92a606221a5bf2be5258164c764bf;
  0x1df6b9be3dbae7e3f23e496917b8a963f67f4c9844fd685bfb833f6ec20cc6dbf;
  0x1104d69f7eae385bf88873e49f234753f030bebd89d8432bf5d56acae47354bbf;
  0x109e4327fcd5b3a3fa4217fcd66e746bf5a199ee307ac8b3fa18d9aa461d365bf;
  0x18865c2c310a34cbfc666c1629d4c913f641dba75f4496bbfd10448c141fef0be;
  0x123b73017e287343f574df3d6773110bf5e5a5461512c99bf5293b45bdc8ca63f;
  0x1b846115e9957a03fc75185795ec7ab3f641a090149e2b1bf1db10de977ad76bf;
  0x1dbdf18c49148653fd49009dbcd456bbfc027aad94d932f3f803a0c54e8dcf5be;
  0x1aa042eda444550bfe212d2ff79d7a4bf20933357eabae03e24fe1ab3c4e6383f;
  0x15aee4fc2b8e58f3f4060bdab422a763e14430defd57ed03e1a6a60603721253f;
  0x188455db7951083bfbd3c3acd2e1795bf4f72acff16b2863f076983045ec668bf;
  0x17ce77e554a687bbf0ca4e59c447e6d3f23f945ed522971bf757e7d9925fc82bf;
  0x1608078c4076e743fdc3f6942713d81bf73360c41fc7f95bf42d907697f1a863f;
  0x186e1eb4d274a65bfca5f7408dd8c7abfb61015a3ab4b6b3fd37d386654bc6f3f;
  0x1d9752d99e8c9833f902d70741f5874bf793c2c7905c4a03f7f52ea76a7e597bf;
  0x190ce9ce903ef57bf9b8e536c5432b1bf6a8634fee182a83ff22e1b087c8c683f;
  0x19d107660e60367bfb7a38d460667603f61423325736d203f0dbcdfe76e89813f;
  0x124d57161bba4943fb37293848fb085bfca9927f52801763fcff4339d11e7893f;
  0x17451c52121377bbfb847954bea36113f035be0909843243f682ed675804a15bf;
  0x1659244209bc0503f28a38a9f2b2b5c3f327350ff1ef550bf9566f99b87f48a3f;
  0x130c8d1fd85a9963fffe5eb4e07498bbfde1b754e133e3e3fe80cda860a6d493f;
  0x1848bae12e19c3ebf2404d82b69cea1bff5b03396be5e9e3f6cf3801252f9b13f;
  0x1a676b1563d0cabbf945c78df396db13f0e97799b1bd1a23f966b013efb4969bf;
  0x1289ea2d3c282693f92e0fe3f093d14bfe87b86cec62d20bfa0d6ce5f273f38bf;
  0x1c940ae7d47f5a1bfe008eb573b7a15bff086b00f041830bf6be3ba07ead697bf;
  0x1506adba9e55c05bfa0e22ccc080220bfcb8322745ab687bf4424170bab4f2bbf;
  0x10051350fa5e6e63efbc9f1ae4414a2bffcfac1e1cfb821bf00b6c86167b8dd3e;
  0x182ed1474757697bffc2e48ea2fc1113f0070940173c6cdbeb55e63058c81873f;
  0x10168ce42fd1b57bfe652f2487f0067bf714c5e37dbcf593f41ccaa130c9287bf;
  0x118c222a7017697bf1c89c78cb8538a3f4ea20a31011335bfe344b301eff944bf;
  0x18af35776f189373f6057d3c1cb18b33f4be9a673911fabbff95590a8d0056cbf;
  0x1b5592cb5dcaa5a3fbe6e04a31af052bfa54445acdd9013bf4a1c26c222d430bf;
  0x1dc594cefdae6273f3189d03dc1b1e83ebc99defbd07ea3bfafc01503941e9b3f;
  0x18a6ec386638c603f343fc0b1ef1bb03fdee162d1af68a6bfd4e3d61e19596bbf;
  0x19aafbcd349ce6d3f475fa79822bb64bfdf39c4b0de4c29bf7daa044ad36ea83f;
  0x1aa97869954a7a6bfc0e1b50a451687bf8fc44d242788b13f96367ccd1bbab0bf;
  0x1dae0ee59685669bff3f70bbc4aff903fe116047c07f282bf94304c0cbd5459bf;
  0x1221f85c795d786bf9752a78d646690bf60c91282ac2c853ffb8015a86634823f;
  0x19b5c96420f248a3fab96386e29e080bfb474834be71770bfb8061beeef1b77bf;
  0x1d4a9308c3fd66d3f44ea9e17140c95bfc046b86fcc278e3ff3acd580ebd04c3f;
  0x12ab98c56bebc9bbf286c9c77d0de933f17e42a87e1fc523f3c77fbc4271fb1bf;
  0x178186d51fd87a83f7fa85b8a0f71673f8410e819324f96bfe2d383e6e69c8e3f;
  0x1be23f24b7897543f01de0962ec64a7bf21e9f4f9ff0ca03fb3da5676d097653f;
  0x17339539385efaa3f49f9ef5a047ba2bfe210cb429cdc68bff870e92c35a87b3f;
  0x1490de51136d0963f96acccc7573c85bf1771fc00ba3068bf4b2112dd28f483bf;
  0x1a52c6836ea92723ffdc3bc618993563f9788ae7e559f723f3343648aa85561bf;
  0x194145108cc09433f9c6e3053267961bf740ae2cf21d6823fc431cebd552b293f;
  0x14f1aec2faa1947bf9a53ca3308e7683f4bf79cc69d0be93eb1f4d2b78dfc06bf;
  0x193e71350a6c7283f47f8caa3128f59bf49ea2e9c4563853f1ac5e4fd402f00bf;
  0x1b7bcd65f83075ebf32be4fd2f120893f8b876fedf10303bf1eb2d7237df42b3f;
  0x1b19e12c4946457bfd223b78fafb3d13e88957a04156599bf28c07d771b0fa13f;
  0x1432226d23969a23f46dc48887b7fa83f3385cfc4a0bcaabf7a346a01e11b85bf;
  0x14255ce6db1a090bf37255a185199923f80193de94d437a3fb0a81aa87c571ebf;
  0x1d8294a70cde041bfd58fab1bc3a6a4bf70138cf407ff053fc8bbb154e5eb293f;
  0x1101e64c643f18d3fd845a2d12447f8be6083cd863e9c1cbf4284e401328680bf;
  0x14e16c63c57f584bfd6417d6af07693bf1edf34148e78863fce5516964a6569bf;
  0x1a0373276ed9577bfc94d0c937c3a6b3f0f53a08a7a7778bf5245927e10b986bf;
  0x146d320d8823b7a3fd4232052af1c84bf4629ab89c20494bf8426a24dd176863f;
  0x1540dfb6736e072bf125dca17c2c982bfb183d78d5515753fd43c1f6b6bd3703f;
  0x10d24b26367bf803f3be562d72acb72bf3530454915679f3f5c5b1dd519dc92bf;
  0x1338ff08a04f568bff0fbeecb67faacbf9f988dcf5567a13f7d4dabcdbc07773f;
  0x1a1f18fbe2510943fc096aee9511988bfc731b9c4d9e35fbf11f6d410c6ff883f;
  0x16be6e4e13aeb933f27d45913488c88bf7c5ea87abcd7793f92712f264e97843f;
  0x15a0047c6586079bf2e916812d5e0113ffce319ad7b7d1c3f606bd7cb3c8e11bf;
  0x1201031b7bb2b613f2fc49e8f8575733fa55dad16c4be64bf70dfd2a241b3843f;
  0x1597934767375973f72e55ab45e0289bf026df54bf92359bfa8acc899a67d6cbf;
  0x15facaef8b55f5e3fd38836e4ab45abbf065eb6a85292a93ffe5afbe99580ae3f;
  0x1b523dbf471f0a8bf98bf0d05a7a5b03f05cb19219d76a03f57d43888e4fd803f;
  0x1a9e5bd0bbb2e81bfd8c34e79bae55b3fef5b84d9cdda543ff012c5422c037dbf;
  0x1a25794b0820b9cbfa1c01eb3ce8f493fbde46d75c4c771bf8b3fbf98fc2f91bf;
  0x15964b06022b33f3fb3beabd5c10c66bf22bcdebc875085bf968c3c5bff4843bf;
  0x1cc4519390ac25c3f4a9b9c0085e9a0bfec4ce95d05eb3bbf9c2984a2cfd0543f;
  0x164c635c09b7b98bfaaf313aebc17283f64660c75a8f641bf964dd74bd220853f;
  0x19d12b514ebae56bf44bd74f0df2c65bfb5d85151cd64583f07a6922d155788bf;
  0x1a5ba813dd7b896bfc8cefe97f32c8a3ffbc5837d4f7c633fccc71d1fb030723f;
  0x1f67df01c77f464bf4182c1364f9bb33f039f1e956741adbf3b1c03202aa161bf;
  0x1301896a9283278bf95c827a8350d723f4fe60fed8ac1253f0e057f484539743f;
  0x106e9a0f9192d6ebf52791670322f22bf8d070c445b2a97bf0394fd87e0f08e3f;
  0x168e321cc94b3583feaf3b09209efb03fa7ffc50e179ea6bf315d602c7b0e72bf;
  0x1a78dcb88c9ab90bf17f252774444863f987bd096c5c6513fa28542c986a9ab3f;
  0x1a9c88a94add1aabf28701842200f56bff09edf1ca024a73f74e419adf742adbf;
  0x1fee63df2243b793fed1067e6968e913f95cde3c5fc9a8bbfdc7c14e25c2242bf;
  0x1c661b2f5a5ca8fbf19fbb90520a586bf3ba091cd4c0b853f4918b43bc8a98f3f;
  0x16822cff5b68d863f28c3e66a8bf584bf9e85aded508a67bfe529b30d85c460bf;
  0x1b7fa28c41f2a5f3f01de99e1faa38abfd1d61b61eb36823f6deff5b2a116493f;
  0x18c82f32d9caa93bfb3f9b5df78e48a3f40a64b194885523fb68dd73c9eadb1bf;
  0x12b9a0436762ca83ff29f33dcf1a5703f4f4a396382a29dbf747e4a15bf05943f;
  0x19d25480818c95d3f5935174142e1a3bf8d6cae8c02dd9a3f52dbc57924fb633f;
  0x1dbf6e581887dab3f5f85e01ed692a2bf804e756253a16bbfe06998146809703f;
  0x16ab4e9681c5b963f6ad3ce2e4cb681bf58d1b5b91e4a60bfa6d5160453b586bf;
  0x19293c08ac5fd713fce20dc112526513f3a0c92540ce8773fd5a2df49c8f062bf;
  0x19be2ee3232e53ebf30e160fa33f38a3fdd89e0caa67667bf7b531408faf744bf;
  0x12139ce647e4a923ff296cdd46fd96fbf79b34d86ab71073fed0946ec437354bf;
  0x1679af252facd313fb475c060084d90bfc7ae003e58a7a53f1ac6379af9259c3f;
  0x17e5feab45653a83f3aff4fd86826b1bfcce2bfd6ebb480bf5de1f162fbea93bf;
  0x17f037faf6eb4963f4993c6330975653f0e854303f50b413f5105015b7f876cbf;
  0x1def4dcfd5e4ea3bfc0160e7fb5812fbf45d199a35d5d5a3f6765050b62d7913f;
  0x1a0c50702c071113feb495b90db313dbf8fc5afefa7c173bf900379576b0782bf;
  0x13c9e9c487ec693bf99b33111ea59853fbfc577b2058a57bfc9ec3b17bcd169bf;
  0x1458b7ce173e05b3f31a6f2aa1a5f78bf0893c7f674bb8abf42cc85baccdc7c3f;
  0x17ab768a9b5ca7dbfde1af1ffb1d396bf77c6a141a0ca853f3d5daddea3bf61bf;
  0x1d463d23fce327bbfab869240f9f6693feef53225cb46653f64746e7c694d803f;
  0x173d80a9336206fbf9a3f46283d5d9b3f5c99c9afe0cc90bf2f722d89c55464bf;
  0x1b3cac018a1b4adbf9b0a06d7df3ca23f2a9531bc1b12763f66cf7112bf63983f;
  0x1855d2a5cb7f28dbf894f22eefe1e62bfc3896d31655a733f466865830599933f;
  0x10d453ad46c1081bfad7a2dde3b48703fb8b19f2fec7c903f566f368a7db67cbf;
  0x1da94217f3e8f2f3f600341c35ef54f3ff4a76679b0d33bbf3c9e9c6d68d5fc3e;
  0x1cc4cad50e44a103f26329149596301bfde7739243c40853f77af36bc0c04983f;
  0x1fead9c2474a189bfa0e29e666aa655bfef02af60867768bf97b8ce8db11c5a3f;
  0x1e1fb78813dac9abff04c7a93be4c973f38650cef879fa23fd830d211f939b2bf;
  0x127ecd4adf320b53fa258f508d008913f5e1b5818d6ba7bbf05cbeb38ce45603f;
  0x1bf9e9d3ac4aa7bbf1f3766771a7e10bfafffb269fa222e3f8ba07e993efd4cbf;
  0x1df15867f409ebc3ebed84d759125dabe34b0800db926f93ecf7ea4f72046d1be;
  0x13a23d62f7b90ef3ebc9601ead45c0ebf1c88fa0339ff5f3f4dc5b66d433187bf;
  0x14b2deb5777534cbfd9b6c663d19d543f8064450b11e37dbf5ce295ef4e4042bf;
  0x184feb13b874e4c3f19abffac848474bf5774ea67270f39bff94c7e62849649bf;
  0x155f50e637c61653f899e9d40d526a0bf57f3f80374f141bf6e6b4ae566fc5d3f;
  0x16112101dfba696bf9418c7b26ac1303f8a7f0bdb4e004cbf9f9898d92627853f;
  0x1c1fe9a90b56c32bf2cdb91e1e6ee58bf842a0a8119eb433fe2e9c613ae7472bf;
  0x109c50736b0f998bfd6849771b7f3833f2336c869d544523f00d8ceaaf0b8783f;
  0x1208a4dc3fdbf63bfd7269c870b2bb13f5a13614092e0a5bfe18860320a6b76bf;
  0x1bb026be1705e8b3faccd1753207081bfde4359517fde51bfd524b32548d88b3f;
  0x11b2ea8b7c1bd81bfca80760f0c2e52bfb2c1b48c7f6ca5bf7415079180b39e3f;
  0x13a1fd933a1485d3f482d33b6898daf3fbcfe1515b79ba6bf3a2c11337f9065bf;
  0x10782f2cb428c82bfacced4f271947a3f5cd337d4485a393f]%N.
Definition file_30 : list N := [0x1934e554d5059010076007b276465736372273a205b282773616d706c65272c20;
  0x1273c693427292c202827737472756374757265272c20273c693427292c202827;
  0x161746f6d272c20273c693427295d2c2027666f727472616e5f6f72646572273a;
  0x12046616c73652c20277368617065273a202835392c292c207d2020202020200a;
  0x10000000000000000010000000000000000000000040000000000000000000000;
  0x10500000000000000000000000600000000000000000000000700000000000000;
  0x10000000009000000010000000000000002000000010000000000000004000000;
  0x10100000000000000050000000100000000000000060000000100000000000000;
  0x10700000001000000000000000800000001000000000000000900000002000000;
  0x10000000003000000020000000000000005000000020000000000000006000000;
  0x10200000000000000070000000200000000000000080000000200000000000000;
  0x10900000003000000010000000100000003000000010000000400000003000000;
  0x10100000005000000030000000100000006000000030000000100000007000000;
  0x10300000001000000080000000300000001000000090000000400000001000000;
  0x10200000004000000010000000400000004000000010000000500000004000000;
  0x10100000006000000040000000100000007000000040000000100000008000000;
  0x10400000001000000090000000500000001000000030000000500000001000000;
  0x10500000005000000010000000600000005000000010000000700000005000000;
  0x10100000008000000050000000100000009000000060000000200000001000000;
  0x10600000002000000040000000600000002000000050000000600000002000000;
  0x10600000006000000020000000700000006000000020000000900000007000000;
  0x10200000002000000070000000200000004000000070000000200000005000000;
  0x10700000002000000060000000700000002000000070000000700000002000000;
  0x10800000007000000020000000900000008000000020000000300000008000000;
  0x10200000004000000080000000200000005000000080000000200000006000000;
  0x10800000002000000070000000800000002000000080000000800000002000000;
  0x109000000]%N.
Definition file_31 : list N := [0x1934e554d5059010076007b276465736372273a205b28276772616469656e745f;
  0x1646972656374696f6e272c20273c693427295d2c2027666f727472616e5f6f72;
  0x1646572273a2046616c73652c20277368617065273a2028332c292c207d202020;
  0x1202020202020202020202020202020202020202020202020202020202020200a;
  0x1000000000100000002000000]%N.
Definition file_32 : list N := [0x1934e554d5059010076007b276465736372273a205b282773706865726963616c;
  0x15f6861726d6f6e6963735f6d272c20273c693427295d2c2027666f727472616e;
  0x15f6f72646572273a2046616c73652c20277368617065273a2028312c292c207d;
  0x1202020202020202020202020202020202020202020202020202020202020200a;
  0x100000000]%N.
Definition file_33 : list N := [0x1934e554d5059010076007b276465736372273a20273c6638272c2027666f7274;
  0x172616e5f6f72646572273a2046616c73652c20277368617065273a2028392c20;
  0x1312c2033292c207d202020202020202020202020202020202020202020202020;
  0x1202020202020202020202020202020202020202020202020202020202020200a;
  0x1dba3336bf4c7c03fa2c040e7cf1692bfe251215b6dd88e3f5196fbea584fc43f;
  0x1a0a7634085b974bf3068797da9fa423fbd5eccff6ae5c13fb8f3a04e374195bf;
  0x1e337e5c6ee018b3f8bdef95bb108c13f20dadacba92393bf1fe0011644178e3f;
  0x150b798aaa3e3c43fe0278b8879e77bbfc272f55e754835bf58fd27040a38c23f;
  0x103139526cb0697bfc645f2b5367f8a3fdab2ef60f479c03fda208ef7491591bf;
  0x133d3b7091bf48f3fe63c79e494a9c33f38aaa8240e606cbfb1f69e769bc65c3f;
  0x16f0bc0d3208fc13fbb6e4635d78993bf3180171c86a98b3f]%N.
Definition file_34 : list N := [0x1934e554d5059010076007b276465736372273a205b2827737472756374757265;
  0x1272c20273c693427292c20282763656e746572272c20273c693427295d2c2027;
  0x1666f727472616e5f6f72646572273a2046616c73652c20277368617065273a20;
  0x128392c292c207d2020202020202020202020202020202020202020202020200a;
  0x10000000001000000000000000200000000000000030000000100000001000000;
  0x10100000002000000010000000300000002000000010000000200000002000000;
  0x10200000003000000]%N.
Definition file_35 : list N := [0x1934e554d5059010076007b276465736372273a205b282773706865726963616c;
  0x15f6861726d6f6e6963735f6d272c20273c693427295d2c2027666f727472616e;
  0x15f6f72646572273a2046616c73652c20277368617065273a2028312c292c207d;
  0x1202020202020202020202020202020202020202020202020202020202020200a;
  0x100000000]%N.
Definition file_36 : list N := [0x1934e554d5059010076007b276465736372273a205b28276e272c20273c693427;
  0x1295d2c2027666f727472616e5f6f72646572273a2046616c73652c2027736861;
  0x17065273a2028332c292c207d2020202020202020202020202020202020202020;
  0x1202020202020202020202020202020202020202020202020202020202020200a;
  0x1000000000100000002000000]%N.
Definition file_37 : list N := [0x1934e554d5059010076007b276465736372273a20273c6638272c2027666f7274;
  0x172616e5f6f72646572273a2046616c73652c20277368617065273a202832372c;
  0x120332c20312c2033292c207d2020202020202020202020202020202020202020;
  0x1202020202020202020202020202020202020202020202020202020202020200a;
  0x1d27b8721d541a8bfe21208e55fdc85bf7bb379dc905e933fe94e756680e54bbf;
  0x1878d0268c91086bfb25b187a48066b3faf9aa8054a47513fc089ca98080f17bf;
  0x1d86c91cbbba035bf7963c6a22bdfa73f5a66708dc41086bfbfc52d321ef089bf;
  0x1d763b7fd51c33e3f2651ddd46e6f1cbff524bf2e7bb620bfc05d80948c3051bf;
  0x1285add6b29c72f3f41c08c676fad323f5b1646b05faa483f9e3c3c3992f6953f;
  0x16d428b0d079a79bffb3933cfae07393f2948ac45a849863f63692cc7e0fa69bf;
  0x141ef3c2871bdd6be4815781fa53f24bfba642520639a073f7963c6a22bdfa7bf;
  0x15a66708dc410863fbfc52d321ef0893fd763b7fd51c33ebf2651ddd46e6f1c3f;
  0x1f524bf2e7bb6203fc05d80948c30513f285add6b29c72fbf41c08c676fad32bf;
  0x164f7e512abf18d3f88d666ff921b703f48a32846f9097ebff4c052984bcba8bf;
  0x178865676bae5963ff1d049f0996b803f5cfe147fb7df5dbf0813b0452b9a433f;
  0x1b9860ff526213b3fa0e50cdec062a03f9ed1230d8e1e8ebf36e8321e43d675bf;
  0x1bc2f4e3cd208a93fc9632be5290297bf85cd04dd73ae80bf384129d5555e493f;
  0x1fd7871d5c15037bff08c051b6fe720bf5b1646b05faa48bf9e3c3c3992f695bf;
  0x16d428b0d079a793ffb3933cfae0739bf2948ac45a84986bf63692cc7e0fa693f;
  0x141ef3c2871bdd63e4815781fa53f243fba642520639a07bfa0e50cdec062a0bf;
  0x19ed1230d8e1e8e3f36e8321e43d6753fbc2f4e3cd208a9bfc9632be52902973f;
  0x185cd04dd73ae803f384129d5555e49bffd7871d5c150373ff08c051b6fe7203f;
  0x1f9fdcd5c6ac5a03f3c4fa9ca2c9d7b3f5215df1525b887bf3096ec99e13aa93f;
  0x1697faa84abba87bfdee7cf0e2c2d87bf59c7d8f2da30493fd0c196324ab840bf;
  0x18367f8a5ac0116bf45a5cf79d47ba9bf68521092320b7bbf3e3483e88b4f923f;
  0x183ac85e38d6074bf8740bc87959d83bf7c80cf756943713f6ccd1039e6d25fbf;
  0x1d0db1779829a423f702f4e2b4b023f3f3f36589ba83fa93fbaad054938b78dbf;
  0x179627ce97e8c88bfa3217d876566733f8b77f84b0fd556bf420b934ebcdc52bf;
  0x1053b48c58ed25f3f634e9c1ceeb942bfa110cc55bff03ebf0c83b73bef153e3f;
  0x177eb06c9689e953f040c14cf312578bfff5b11810b452f3f784f3b713778863f;
  0x1577b55c4741869bfc8c09924f2dc753ed1927284a36bcf3ec1ce1e82d58bb1be;
  0x13f36589ba83fa9bfbaad054938b78d3f79627ce97e8c883fa3217d87656673bf;
  0x18b77f84b0fd5563f420b934ebcdc523f053b48c58ed25fbf634e9c1ceeb9423f;
  0x1a110cc55bff03e3f68b834883a6b883f14b2f513b17a723f23b1c412d7247bbf;
  0x11ee582c71b7aa6bfa635200cb8e8973f64680f3a5fd7773fa58634861700733f;
  0x15cce472e72d65fbf82d128ffcf224cbf25084bf9d924a33f62438069487a93bf;
  0x1cf1334c026f475bf52897278e8e6a83f1fbddf00095699bf342bb44d8e8e7cbf;
  0x1c8efc4a9e71666bf2aa7f91f7b79563f639285a8e054393f0c83b73bef153ebf;
  0x177eb06c9689e95bf040c14cf3125783fff5b11810b452fbf784f3b71377886bf;
  0x1577b55c47418693fc8c09924f2dc75bed1927284a36bcfbec1ce1e82d58bb13e;
  0x125084bf9d924a3bf62438069487a933fcf1334c026f4753f52897278e8e6a8bf;
  0x11fbddf000956993f342bb44d8e8e7c3fc8efc4a9e716663f2aa7f91f7b7956bf;
  0x1639285a8e05439bf2b77c2d70561a33fa84035fc0221613fea0fa447ac0c87bf;
  0x1ae9af3832d06a93fc62a8490da338cbf7074ef57648d84bf94a6e0efbb1666bf;
  0x173e0bbf13089563f947303d35443393f3bd88c89b76aa6bf15bc152399e28ebf;
  0x1356af3e66636943f8248dc67265e36bf90830e95fda088bf8da7643ed2386d3f;
  0x1e7df3f7ab79a6bbfc3ac2dbfc92f453fb00cc08a2667503fa9c1c2bad1e0a53f;
  0x1661451cfc5ca78bf05e10420bb428bbfa68ec70bbebf30bfd18620cccffa023f;
  0x13f5ae67f9cde143f9751a28443ac6b3fffe89bbcca5b3fbf93d042e4903d51bf;
  0x143d242d9b93c513f24235f05fea3953fc9e6c35b25547abf94ebd139f28e433f;
  0x1096342c5028e883f5fda6322c7df6dbf3bb071620a8ce1be0de17e83910726bf;
  0x1687c58304bcd0a3fa9c1c2bad1e0a5bf661451cfc5ca783f05e10420bb428b3f;
  0x1a68ec70bbebf303fd18620cccffa02bf3f5ae67f9cde14bf9751a28443ac6bbf;
  0x1ffe89bbcca5b3f3f93d042e4903d513fdb2e3b2d84ed923fecdb3d642e206e3f;
  0x1da56b10feba281bfdee1467e0051a9bf59d61cbe4340943f8a57787d35b0833f;
  0x13a66ea219853823faf483e6e833b66bfe4dbe917f17661bf77544a481fd4983f;
  0x12e01b8806eed83bf5614a720a03f73bfc1522f02812fa93f16c63656c63694bf;
  0x1d68a7844788683bfa9a383810ed176bf8fcbaa160a50623f35e7904b51b0513f;
  0x143d242d9b93c51bf24235f05fea395bfc9e6c35b25547a3f94ebd139f28e43bf;
  0x1096342c5028e88bf5fda6322c7df6d3f3bb071620a8ce13e0de17e839107263f;
  0x1687c58304bcd0abf77544a481fd498bf2e01b8806eed833f5614a720a03f733f;
  0x1c1522f02812fa9bf16c63656c636943fd68a78447886833fa9a383810ed1763f;
  0x18fcbaa160a5062bf35e7904b51b051bf9b81dee5eae7993f1a45068a8d5a873f;
  0x1907d35bee2c986bf6f9a16cbbc7da93f465256ce13bf7fbf6e81110d6afe8abf;
  0x181dcb486d4d976bf7edd72fe90ef603f18ab13a5bb86523f]%N.
Definition file_38 : list N := [0x1934e554d5059010076007b276465736372273a205b282773616d706c65272c20;
  0x1273c693427292c202827737472756374757265272c20273c693427292c202827;
  0x161746f6d272c20273c693427295d2c2027666f727472616e5f6f72646572273a;
  0x12046616c73652c20277368617065273a202832372c292c207d2020202020200a;
  0x10000000000000000010000000000000000000000020000000000000000000000;
  0x10300000001000000000000000100000001000000000000000200000001000000;
  0x10000000003000000020000000000000001000000020000000000000002000000;
  0x10200000000000000030000000300000001000000010000000300000001000000;
  0x10200000003000000010000000300000004000000010000000100000004000000;
  0x10100000002000000040000000100000003000000050000000100000001000000;
  0x10500000001000000020000000500000001000000030000000600000002000000;
  0x10100000006000000020000000200000006000000020000000300000007000000;
  0x10200000001000000070000000200000002000000070000000200000003000000;
  0x10800000002000000010000000800000002000000020000000800000002000000;
  0x103000000]%N.
Definition file_39 : list N := [0x1934e554d5059010076007b276465736372273a205b28276772616469656e745f;
  0x1646972656374696f6e272c20273c693427295d2c2027666f727472616e5f6f72;
  0x1646572273a2046616c73652c20277368617065273a2028332c292c207d202020;
  0x1202020202020202020202020202020202020202020202020202020202020200a;
  0x1000000000100000002000000]%N.
Definition file_40 : list N := [0x1934e554d5059010076007b276465736372273a205b282773706865726963616c;
  0x15f6861726d6f6e6963735f6d272c20273c693427295d2c2027666f727472616e;
  0x15f6f72646572273a2046616c73652c20277368617065273a2028312c292c207d;
  0x1202020202020202020202020202020202020202020202020202020202020200a;
  0x100000000]%N.
Definition file_41 : list N := [0x1934e554d5059010076007b276465736372273a20273c6638272c2027666f7274;
  0x172616e5f6f72646572273a2046616c73652c20277368617065273a2028392c20;
  0x1312c2033292c207d202020202020202020202020202020202020202020202020;
  0x1202020202020202020202020202020202020202020202020202020202020200a;
  0x12e7dc14487d1973fd3b1f0d892ad993f2122dcf33f1256bf783c9f52e61b47bf;
  0x1e76f8256fe758b3f6a0ea7e6180a883f31fd3b65a73c45bf211eee68557b743f;
  0x1aaea403d4f338c3fcbc4a908b77c953fc15f7c0193809a3ff75d2b8d44094cbf;
  0x133f66988284637bf4de60bf5f724903f661b3e850839863f0f4ab548658545bf;
  0x180da314411d5743f187d42d5052e8c3ff70c7a6c2da8973f7d8ff26c50bd993f;
  0x1145385c5ae8b55bf5d7803d4493542bf56028b091ce18d3ff469a68bef29873f;
  0x160ce5eebeb4f4dbfdaf9aa6f1025843f67f23b2b88468a3f]%N.
Definition file_42 : list N := [0x1934e554d5059010076007b276465736372273a205b2827737472756374757265;
  0x1272c20273c693427292c20282763656e746572272c20273c693427295d2c2027;
  0x1666f727472616e5f6f72646572273a2046616c73652c20277368617065273a20;
  0x128392c292c207d2020202020202020202020202020202020202020202020200a;
  0x10000000001000000000000000200000000000000030000000100000001000000;
  0x10100000002000000010000000300000002000000010000000200000002000000;
  0x10200000003000000]%N.
Definition file_43 : list N := [0x1934e554d5059010076007b276465736372273a205b282773706865726963616c;
  0x15f6861726d6f6e6963735f6d272c20273c693427295d2c2027666f727472616e;
  0x15f6f72646572273a2046616c73652c20277368617065273a2028312c292c207d;
  0x1202020202020202020202020202020202020202020202020202020202020200a;
  0x100000000]%N.
Definition file_44 : list N := [0x1934e554d5059010076007b276465736372273a205b28276e272c20273c693427;
  0x1295d2c2027666f727472616e5f6f72646572273a2046616c73652c2027736861;
  0x17065273a2028332c292c207d2020202020202020202020202020202020202020;
  0x1202020202020202020202020202020202020202020202020202020202020200a;
  0x1000000000100000002000000]%N.
Definition file_45 : list N := [0x1934e554d5059010076007b276465736372273a20273c6638272c2027666f7274;
  0x172616e5f6f72646572273a2046616c73652c20277368617065273a202831382c;
  0x120332c20312c2033292c207d2020202020202020202020202020202020202020;
  0x1202020202020202020202020202020202020202020202020202020202020200a;
  0x1518948d2cf7995bf66283e00d26e803f275407dc2665713fe25129a8f786a93f;
  0x151a2c2926e8893bf463586c93bad84bf07581bee9ed553bff503b1b0985a3e3f;
  0x11374388acd10303f518948d2cf79953f66283e00d26e80bf275407dc266571bf;
  0x1e25129a8f786a9bf51a2c2926e88933f463586c93bad843f07581bee9ed5533f;
  0x1f503b1b0985a3ebf1374388acd1030bfa54477105c7162bf7741fdf758aa95bf;
  0x1e4d8e8d1b1297e3f43544b1070f9563fbc9fead621fd8a3fd5ffe1807dc972bf;
  0x11f9581096a4cc73ed760ca889b5efb3ea5a54aed570de3bea54477105c71623f;
  0x17741fdf758aa953fe4d8e8d1b1297ebf43544b1070f956bfbc9fead621fd8abf;
  0x1d5ffe1807dc9723f1f9581096a4cc7bed760ca889b5efbbea5a54aed570de33e;
  0x10fdd3aee4115603f33713b74a5ac93bfc26567bbff49623fdd5bfa861dab1cbf;
  0x1518d5278f988513fa76073fce34c20bf0b9e06db7886e63ec63d72ed218e1bbf;
  0x159f955586d9de93e0fdd3aee411560bf33713b74a5ac933fc26567bbff4962bf;
  0x1dd5bfa861dab1c3f518d5278f98851bfa76073fce34c203f0b9e06db7886e6be;
  0x1c63d72ed218e1b3f59f955586d9de9bef7729d34e31393bf05d2a99feaa9783f;
  0x149eaac85258a713f5e91ffa79636a83f20fa88b1914d8fbfe3540918db4286bf;
  0x1afc54e9b6f82713f418748f0eaa256bf787310690f1950bff7729d34e313933f;
  0x105d2a99feaa978bf49eaac85258a71bf5e91ffa79636a8bf20fa88b1914d8f3f;
  0x1e3540918db42863fafc54e9b6f8271bf418748f0eaa2563f787310690f19503f;
  0x138544a87472071bf9674f725cf0b96bfb435ac68fbdc813f55ba42c2b6b3643f;
  0x12861158c3ba68a3f5ba4844ad19775bffcd270636f96213f846bbcb5e8a3463f;
  0x10b61c828395832bf38544a874720713f9674f725cf0b963fb435ac68fbdc81bf;
  0x155ba42c2b6b364bf2861158c3ba68abf5ba4844ad197753ffcd270636f9621bf;
  0x1846bbcb5e8a346bf0b61c8283958323f35bcd229a6be5f3faed742f00fbf93bf;
  0x1ea07d52ef9de623fdd61bf2a906b1fbf175e3540618b533f88c59e0195ad22bf;
  0x1ad54fadbd51616bf1be89b94037b4b3fc14bc29527431abf35bcd229a6be5fbf;
  0x1aed742f00fbf933fea07d52ef9de62bfdd61bf2a906b1f3f175e3540618b53bf;
  0x188c59e0195ad223fad54fadbd516163f1be89b94037b4bbfc14bc29527431a3f;
  0x108b9676819848ebfa18d89f32b1d773fe3a57607b7ef683f1150fb8da35aaa3f;
  0x1ad399b1b27f693bf545621ec108985bf598c5ceb2693773f865326153fdb61bf;
  0x1d24a4559ab4353bf08b9676819848e3fa18d89f32b1d77bfe3a57607b7ef68bf;
  0x11150fb8da35aaabfad399b1b27f6933f545621ec1089853f598c5ceb269377bf;
  0x1865326153fdb613fd24a4559ab43533fe21120f523f768bf52a71af1fc2095bf;
  0x11279732a08cb7f3f69fee9713659613fab53bf576d5d8d3f55f68f2fd31776bf;
  0x127f48ebb2138063fda8f267803ce323f66e6cd7dc24b1cbfe21120f523f7683f;
  0x152a71af1fc20953f1279732a08cb7fbf69fee971365961bfab53bf576d5d8dbf;
  0x155f68f2fd317763f27f48ebb213806bfda8f267803ce32bf66e6cd7dc24b1c3f;
  0x15526eed5f7721abf3069aeb502e397bf87768284680f793f3db67fcc37b0d23e;
  0x1008fec93bbe0503fcac296b6fcb431bf65f88c8227b5db3ea15e0cecfb05593f;
  0x1339e53fcac403abf5526eed5f7721a3f3069aeb502e3973f87768284680f79bf;
  0x13db67fcc37b0d2be008fec93bbe050bfcac296b6fcb4313f65f88c8227b5dbbe;
  0x1a15e0cecfb0559bf339e53fcac403a3f]%N.
Definition file_46 : list N := [0x1934e554d5059010076007b276465736372273a205b282773616d706c65272c20;
  0x1273c693427292c202827737472756374757265272c20273c693427292c202827;
  0x161746f6d272c20273c693427295d2c2027666f727472616e5f6f72646572273a;
  0x12046616c73652c20277368617065273a202831382c292c207d2020202020200a;
  0x10000000000000000000000000000000000000000010000000100000000000000;
  0x10000000001000000000000000200000002000000000000000000000002000000;
  0x10000000003000000030000000100000000000000030000000100000001000000;
  0x10400000001000000000000000400000001000000020000000500000001000000;
  0x10000000005000000010000000300000006000000020000000000000006000000;
  0x10200000001000000070000000200000000000000070000000200000002000000;
  0x1080000000200000000000000080000000200000003000000]%N.
Definition file_47 : list N := [0x1934e554d5059010076007b276465736372273a205b28276772616469656e745f;
  0x1646972656374696f6e272c20273c693427295d2c2027666f727472616e5f6f72;
  0x1646572273a2046616c73652c20277368617065273a2028332c292c207d202020;
  0x1202020202020202020202020202020202020202020202020202020202020200a;
  0x1000000000100000002000000]%N.
Definition file_48 : list N := [0x1934e554d5059010076007b276465736372273a205b282773706865726963616c;
  0x15f6861726d6f6e6963735f6d272c20273c693427295d2c2027666f727472616e;
  0x15f6f72646572273a2046616c73652c20277368617065273a2028312c292c207d;
  0x1202020202020202020202020202020202020202020202020202020202020200a;
  0x100000000]%N.
Definition file_49 : list N := [0x1934e554d5059010076007b276465736372273a20273c6638272c2027666f7274;
  0x172616e5f6f72646572273a2046616c73652c20277368617065273a2028332c20;
  0x1312c2033292c207d202020202020202020202020202020202020202020202020;
  0x1202020202020202020202020202020202020202020202020202020202020200a;
  0x14f13d0f5485aac3f75071a7738c9b03f70d72122e640993f86a5b07516c9a23f;
  0x1be83d1724cdcb13f85f2b624cb459d3f026fa4ae1bb0ab3f0d4bef6e5200b33f;
  0x1e65de18bcfdb953f]%N.
Definition file_50 : list N := [0x1934e554d5059010076007b276465736372273a205b2827737472756374757265;
  0x1272c20273c693427292c20282763656e746572272c20273c693427295d2c2027;
  0x1666f727472616e5f6f72646572273a2046616c73652c20277368617065273a20;
  0x128332c292c207d2020202020202020202020202020202020202020202020200a;
  0x1000000000000000001000000000000000200000000000000]%N.
Definition file_51 : list N := [0x1934e554d5059010076007b276465736372273a205b282773706865726963616c;
  0x15f6861726d6f6e6963735f6d272c20273c693427295d2c2027666f727472616e;
  0x15f6f72646572273a2046616c73652c20277368617065273a2028312c292c207d;
  0x1202020202020202020202020202020202020202020202020202020202020200a;
  0x100000000]%N.
Definition file_52 : list N := [0x1934e554d5059010076007b276465736372273a205b28276e272c20273c693427;
  0x1295d2c2027666f727472616e5f6f72646572273a2046616c73652c2027736861;
  0x17065273a2028332c292c207d2020202020202020202020202020202020202020;
  0x1202020202020202020202020202020202020202020202020202020202020200a;
  0x1000000000100000002000000]%N.
Definition file_53 : list N := [0x1934e554d5059010076007b276465736372273a20273c6638272c2027666f7274;
  0x172616e5f6f72646572273a2046616c73652c20277368617065273a202831382c;
  0x120332c20312c2033292c207d2020202020202020202020202020202020202020;
  0x1202020202020202020202020202020202020202020202020202020202020200a;
  0x14b1e586d4299b23fb44c181dec64b6bfe180891977af83bfb3af9be3b263a13f;
  0x1d47ccc665fec943ffae1f2bac9f864bf8ec5227b912655bf68f087c4ba5b39bf;
  0x16ce3c446984d4d3fd1d23deca464b4bf2735ddfb994cb03fdb6f0733a2a9203f;
  0x1650f5d61263884bf9756da160a29803f9df327534785f03e12013f151f58493f;
  0x19c49440ea24144bf3178f56940b5b4be2dcb88ec82c5523fceda7e0a37195f3f;
  0x13dadb20b6ed752bfecf19537dbdd88bf4ff2765d1b9994bfb1d2d8c597f5883f;
  0x183feaac10f4c76bf5e4716503a7882bfb02d50695861763fc42193ef84d7503f;
  0x129e23e6511845a3f0d117128196d50bfe18eb8fec9a589bf495f1f28993094bf;
  0x1751be9dbb903893fd5c8acd590f9773fb475f81380df823ff12b2392126277bf;
  0x1f70c59b484604e3fe0010bdb7cb86bbf8c6e73d0874e953fc603008a1c1c4bbf;
  0x1be2b4bc938bd683fe22c78b6dd0393bf1191b20a42b6f0beefcef6ef46800e3f;
  0x1b2b6a8ffa07137bf832bc960d502703fa1e25199833e983f2c02a529aec782bf;
  0x1118de68e0ef6563fff8766f45162813f75bff9a699ee6abf08303745b53a203f;
  0x181ef65c31e93483f9d3647c0370933bff8c350b7200cab3fbef5836c7794acbf;
  0x1c211e21c9bce93bf3cfb5f48850f9d3f587ec5717dfd9a3f94886f5fb1c069bf;
  0x16353269befe0a43fb7b1e7c19e4a8dbf36d0e31a56cb84bfb7abcca96c9bacbf;
  0x1e220a12d8a1ca13fef6e6c48dc00773f53e2bca224dc79bf88d61bd4bcef6e3f;
  0x18b46b6c357cb443fe91f430f09c6a2bfaea1ac058175963fc69deacc30316e3f;
  0x10fc2ea611dbf593fb4cb4885f4f6633ffb564ba394e658bf9faa49f2952588bf;
  0x15c9bd3c364b992bfb3b1b16e815a873fc78ce81fa8577ebf011cde47488787bf;
  0x1b6d45b6678587d3f5be2efa6ed054d3f3fd29ee6c38b613f778f702ec23f52bf;
  0x188416c466d1b83bf905f41183a1a97bf62e0db8a3807883f31f3af3d93ae693f;
  0x1a01a498e520d7f3f4a6664e7ee2570bf1abaefbdf5b44e3f71bf44ef70fc6bbf;
  0x124bfd3d3f6fa953f0ad77cd6d1d94abf55bfe929c478683fbe599ca55b3893bf;
  0x19800dc95eef91b3ff1db9db5597f39bf6da7f68f9706643fe260761343cc36bf;
  0x1e84d318e11bf953fdd2ac46fb5e874bf6fedf250fa9520bf62273b2a45a47f3f;
  0x1e106a3955e6c5ebf5ab1c3cf33a10c3f53502cec254f6bbf2a7bfc42f4414a3f;
  0x1381a68d875b2ae3f204b7a6e1333b3bff2bfd7b9c1a276bfde69598e14e2963f;
  0x1208e4ead0df0993f51f1d3c85fef61bf87e6f6614d68a23f809591417d248dbf;
  0x169496ea0add281bf14faa927107db2bfbcf354f81c66ac3f174fe9518c56543f;
  0x13e714403e0b356bf5e55fc48996f513f49e6f93048f9f83e5e89453b5d239fbf;
  0x1d9b0369d1dea973fe19d4c9a6620413fac83986d33c8553fda3f1452ad20603f;
  0x12c140854d98854bf7dd1c094bfb887bf5d0ca670539091bfda8eee78f55c863f;
  0x1b8bd95f7059681bfcc989089b00a8abf7d4c77a83094803fe4142848a7aa3bbf;
  0x1aa6d67c2717e46bfff80046a5f7a3b3fc3e12ca187208abf8fd7df12023e95bf;
  0x150d5078beff2893f70801eefa080723ffa8e12b616167e3f8c693b17576072bf;
  0x1a0ec9d91b9534b3fd1ecdf1d3e0d69bf9f960a2da566913fa3c0c56610d64abf;
  0x18fcb14700b9a683ffa0134eba01691bfbf01176bc3b9213f31a34ff8ef3f40bf;
  0x182008d72fe92663f28b9230fbd8d853f15f6cb7099d1953faa9835d8725188bf;
  0x16a931f40f631713f08ee49a71968813faac1e3be8f6673bf2c2fb3f7645d5abf;
  0x1c2023e2b67b06abf9d3d65ea13bf5d3f]%N.
Definition file_54 : list N := [0x1934e554d5059010076007b276465736372273a205b282773616d706c65272c20;
  0x1273c693427292c202827737472756374757265272c20273c693427292c202827;
  0x161746f6d272c20273c693427295d2c2027666f727472616e5f6f72646572273a;
  0x12046616c73652c20277368617065273a202831382c292c207d2020202020200a;
  0x10000000000000000000000000000000000000000040000000000000000000000;
  0x10500000000000000000000000600000000000000000000000700000000000000;
  0x10000000009000000010000000100000000000000010000000100000004000000;
  0x10100000001000000050000000100000001000000060000000100000001000000;
  0x10700000001000000010000000900000002000000020000000000000002000000;
  0x10200000004000000020000000200000005000000020000000200000006000000;
  0x1020000000200000007000000020000000200000009000000]%N.
Definition file_55 : list N := [0x1934e554d5059010076007b276465736372273a205b28276772616469656e745f;
  0x1646972656374696f6e272c20273c693427295d2c2027666f727472616e5f6f72;
  0x1646572273a2046616c73652c20277368617065273a2028332c292c207d202020;
  0x1202020202020202020202020202020202020202020202020202020202020200a;
  0x1000000000100000002000000]%N.
Definition file_56 : list N := [0x1934e554d5059010076007b276465736372273a205b282773706865726963616c;
  0x15f6861726d6f6e6963735f6d272c20273c693427295d2c2027666f727472616e;
  0x15f6f72646572273a2046616c73652c20277368617065273a2028312c292c207d;
  0x1202020202020202020202020202020202020202020202020202020202020200a;
  0x100000000]%N.
Definition file_57 : list N := [0x1934e554d5059010076007b276465736372273a20273c6638272c2027666f7274;
  0x172616e5f6f72646572273a2046616c73652c20277368617065273a2028332c20;
  0x1312c2033292c207d202020202020202020202020202020202020202020202020;
  0x1202020202020202020202020202020202020202020202020202020202020200a;
  0x160a302d7c26e963fa7b836afb343a63f683ab61290bd983fa272423c7373943f;
  0x1575ecaa367eda73f50f1d6083d53983fc1fa7ebe032c963fcac6c6543360a93f;
  0x1fcd818ef805f973f]%N.
Definition file_58 : list N := [0x1934e554d5059010076007b276465736372273a205b2827737472756374757265;
  0x1272c20273c693427292c20282763656e746572272c20273c693427295d2c2027;
  0x1666f727472616e5f6f72646572273a2046616c73652c20277368617065273a20;
  0x128332c292c207d2020202020202020202020202020202020202020202020200a;
  0x1000000000000000001000000000000000200000000000000]%N.
Definition file_59 : list N := [0x1934e554d5059010076007b276465736372273a205b282773706865726963616c;
  0x15f6861726d6f6e6963735f6d272c20273c693427295d2c2027666f727472616e;
  0x15f6f72646572273a2046616c73652c20277368617065273a2028312c292c207d;
  0x1202020202020202020202020202020202020202020202020202020202020200a;
  0x100000000]%N.
Definition file_60 : list N := [0x1934e554d5059010076007b276465736372273a205b28276e272c20273c693427;
  0x1295d2c2027666f727472616e5f6f72646572273a2046616c73652c2027736861;
  0x17065273a2028332c292c207d2020202020202020202020202020202020202020;
  0x1202020202020202020202020202020202020202020202020202020202020200a;
  0x1000000000100000002000000]%N.
Definition file_61 : list N := [0x1934e554d5059010076007b276465736372273a20273c6638272c2027666f7274;
  0x172616e5f6f72646572273a2046616c73652c20277368617065273a202831322c;
  0x120332c20312c2033292c207d2020202020202020202020202020202020202020;
  0x1202020202020202020202020202020202020202020202020202020202020200a;
  0x14416901653c595bf3ccf0cb6ca8fa0bff6efd145ec598c3f562fe8996d30aa3f;
  0x178a6203f38c573bfb302e9192e538ebf008a60c7eb9c53bf901ae1edf92c393f;
  0x1b1ce90354e45303f518948d2cf79953f66283e00d26e80bf275407dc266571bf;
  0x1e25129a8f786a9bf51a2c2926e88933f463586c93bad843f07581bee9ed5533f;
  0x1f503b1b0985a3ebf1374388acd1030bfa54477105c71623f7741fdf758aa953f;
  0x1e4d8e8d1b1297ebf43544b1070f956bfbc9fead621fd8abfd5ffe1807dc9723f;
  0x11f9581096a4cc7bed760ca889b5efbbea5a54aed570de33e0fdd3aee411560bf;
  0x133713b74a5ac933fc26567bbff4962bfdd5bfa861dab1c3f518d5278f98851bf;
  0x1a76073fce34c203f0b9e06db7886e6bec63d72ed218e1b3f59f955586d9de9be;
  0x142dcd2b30a6095bfe2eb273732d0a1bfd3ec3777cc598f3f525d0e4c1c72a93f;
  0x1a86967eb4faf51bf1311a908bdac90bff462fabec7b6713f74141da75964233f;
  0x177b09e2c505356bff7729d34e313933f05d2a99feaa978bf49eaac85258a71bf;
  0x15e91ffa79636a8bf20fa88b1914d8f3fe3540918db42863fafc54e9b6f8271bf;
  0x1418748f0eaa2563f787310690f19503f38544a874720713f9674f725cf0b963f;
  0x1b435ac68fbdc81bf55ba42c2b6b364bf2861158c3ba68abf5ba4844ad197753f;
  0x1fcd270636f9621bf846bbcb5e8a346bf0b61c8283958323f35bcd229a6be5fbf;
  0x1aed742f00fbf933fea07d52ef9de62bfdd61bf2a906b1f3f175e3540618b53bf;
  0x188c59e0195ad223fad54fadbd516163f1be89b94037b4bbfc14bc29527431a3f;
  0x1e6ccad2a647b92bf8d56f3545a9ea3bfa350ac0c9354913ff653d876cc70ab3f;
  0x19e1bf3d992e570bfca03cf34519190bf7f4db47884c6773fd491da8005f437bf;
  0x1c51037c092985bbf08b9676819848e3fa18d89f32b1d77bfe3a57607b7ef68bf;
  0x11150fb8da35aaabfad399b1b27f6933f545621ec1089853f598c5ceb269377bf;
  0x1865326153fdb613fd24a4559ab43533fe21120f523f7683f52a71af1fc20953f;
  0x11279732a08cb7fbf69fee971365961bfab53bf576d5d8dbf55f68f2fd317763f;
  0x127f48ebb213806bfda8f267803ce32bf66e6cd7dc24b1c3f5526eed5f7721a3f;
  0x13069aeb502e3973f87768284680f79bf3db67fcc37b0d2be008fec93bbe050bf;
  0x1cac296b6fcb4313f65f88c8227b5dbbea15e0cecfb0559bf339e53fcac403a3f]%N.
Definition file_62 : list N := [0x1934e554d5059010076007b276465736372273a205b282773616d706c65272c20;
  0x1273c693427292c202827737472756374757265272c20273c693427292c202827;
  0x161746f6d272c20273c693427295d2c2027666f727472616e5f6f72646572273a;
  0x12046616c73652c20277368617065273a202831322c292c207d2020202020200a;
  0x10000000000000000000000000000000000000000010000000000000000000000;
  0x10200000000000000000000000300000001000000010000000000000001000000;
  0x10100000001000000010000000100000002000000010000000100000003000000;
  0x10200000002000000000000000200000002000000010000000200000002000000;
  0x102000000020000000200000003000000]%N.
Definition file_63 : list N := [0x1934e554d5059010076007b276465736372273a205b28276772616469656e745f;
  0x1646972656374696f6e272c20273c693427295d2c2027666f727472616e5f6f72;
  0x1646572273a2046616c73652c20277368617065273a2028332c292c207d202020;
  0x1202020202020202020202020202020202020202020202020202020202020200a;
  0x1000000000100000002000000]%N.
Definition file_64 : list N := [0x1934e554d5059010076007b276465736372273a205b282773706865726963616c;
  0x15f6861726d6f6e6963735f6d272c20273c693427295d2c2027666f727472616e;
  0x15f6f72646572273a2046616c73652c20277368617065273a2028312c292c207d;
  0x1202020202020202020202020202020202020202020202020202020202020200a;
  0x100000000]%N.
Definition file_65 : list N := [0x1934e554d5059010076007b276465736372273a20273c6638272c2027666f7274;
  0x172616e5f6f72646572273a2046616c73652c20277368617065273a2028332c20;
  0x1312c2033292c207d202020202020202020202020202020202020202020202020;
  0x1202020202020202020202020202020202020202020202020202020202020200a;
  0x10bad3c7d462ebd3f7b9b3c74835dacbf3fb576a3e6d4653f0bad3c7d462ebd3f;
  0x17b9b3c74835dacbf3fb576a3e6d4653f0bad3c7d462ebd3f7b9b3c74835dacbf;
  0x13fb576a3e6d4653f]%N.
Definition file_66 : list N := [0x1934e554d5059010076007b276465736372273a205b2827737472756374757265;
  0x1272c20273c693427292c20282763656e746572272c20273c693427295d2c2027;
  0x1666f727472616e5f6f72646572273a2046616c73652c20277368617065273a20;
  0x128332c292c207d2020202020202020202020202020202020202020202020200a;
  0x1000000000000000001000000000000000200000000000000]%N.
Definition file_67 : list N := [0x1934e554d5059010076007b276465736372273a205b282773706865726963616c;
  0x15f6861726d6f6e6963735f6d272c20273c693427295d2c2027666f727472616e;
  0x15f6f72646572273a2046616c73652c20277368617065273a2028312c292c207d;
  0x1202020202020202020202020202020202020202020202020202020202020200a;
  0x100000000]%N.
Definition file_68 : list N := [0x1934e554d5059010076007b276465736372273a205b28276e272c20273c693427;
  0x1295d2c2027666f727472616e5f6f72646572273a2046616c73652c2027736861;
  0x17065273a2028332c292c207d2020202020202020202020202020202020202020;
  0x1202020202020202020202020202020202020202020202020202020202020200a;
  0x1000000000100000002000000]%N.
Definition file_69 : list N := [0x1934e554d5059010076007b276465736372273a20273c6638272c2027666f7274;
  0x172616e5f6f72646572273a2046616c73652c20277368617065273a2028332c20;
  0x1332c20312c2033292c207d202020202020202020202020202020202020202020;
  0x1202020202020202020202020202020202020202020202020202020202020200a;
  0x10000000000000000000000000000000000000000000000000000000000000000;
  0x10000000000000000000000000000000000000000000000000000000000000000;
  0x10000000000000000000000000000000000000000000000000000000000000000;
  0x10000000000000000000000000000000000000000000000000000000000000000;
  0x10000000000000000000000000000000000000000000000000000000000000000;
  0x10000000000000000000000000000000000000000000000000000000000000000;
  0x1000000000000000000000000000000000000000000000000]%N.
Definition file_70 : list N := [0x1934e554d5059010076007b276465736372273a205b282773616d706c65272c20;
  0x1273c693427292c202827737472756374757265272c20273c693427292c202827;
  0x161746f6d272c20273c693427295d2c2027666f727472616e5f6f72646572273a;
  0x12046616c73652c20277368617065273a2028332c292c207d202020202020200a;
  0x10000000000000000000000000100000001000000000000000200000002000000;
  0x100000000]%N.
Definition file_71 : list N := [0x1934e554d5059010076007b276465736372273a205b28276772616469656e745f;
  0x1646972656374696f6e272c20273c693427295d2c2027666f727472616e5f6f72;
  0x1646572273a2046616c73652c20277368617065273a2028332c292c207d202020;
  0x1202020202020202020202020202020202020202020202020202020202020200a;
  0x1000000000100000002000000]%N.
Definition file_72 : list N := [0x1934e554d5059010076007b276465736372273a205b282773706865726963616c;
  0x15f6861726d6f6e6963735f6d272c20273c693427295d2c2027666f727472616e;
  0x15f6f72646572273a2046616c73652c20277368617065273a2028312c292c207d;
  0x1202020202020202020202020202020202020202020202020202020202020200a;
  0x100000000]%N.
Definition file_73 : list N := [0x1934e554d5059010076007b276465736372273a20273c6638272c2027666f7274;
  0x172616e5f6f72646572273a2046616c73652c20277368617065273a202831382c;
  0x120332c2033292c207d2020202020202020202020202020202020202020202020;
  0x1202020202020202020202020202020202020202020202020202020202020200a;
  0x1ba59ef8fb2ac19bfe8debb87018aa73f814f5a94647f993f91df43db1e2420bf;
  0x1b0df776716f044bf00e8ce2ae62c11bf9032211d912233bfbc93302dad399dbf;
  0x103da8de64b2d99bf121ec0317b7d34bf3852813b4aa994bf3cb28e2822e285bf;
  0x1aee49935ed1f90bf93aef174ddfaafbff6ddc6f8869692bfe2d55fa2de3a593f;
  0x18fe827a33efb63bf228314159d9786bf9fd52109967425bf2a424e30da8d94bf;
  0x19722f74e991b85bf33ab0675842e903feed20459f016b03f3b44c11b44ac933f;
  0x1762fa6ee330c543f50fc808bfd2844bff2b06fdfbef988bf928eeb0f4ffd5b3f;
  0x1e0d5dbe4816796bff668e2ad6133a8bf0f62234494871a3f3890456c9f7b29bf;
  0x1a1c1cd92a11663bf79d8ef80125e60bf16416b595d6f973f7d28292b58e89f3f;
  0x1afa5bb9c52db74bfe893f4312f6a73bf0771a1672ea78b3f2ea1163a630c32bf;
  0x1ec6b0d3d662c4dbf02ae3a4c0b5b273f31e107dda7ff783ff697e4b3f0fea73f;
  0x11274d0fbe327943fff8f65062e36703f6dd1b00d2f65953f50b45c4fa5929e3f;
  0x19c2efc767bad2f3fa76ecc9c4add553faab71aefddf8523f2263ff2e3af07abf;
  0x1286ca1e97089a3bf1c444d3112d268bf25bf489128b0523f300cf635679ea33f;
  0x1361a8fa214c89b3f0ee990cd33e0553fe09ff4062d3c3d3fcf800589ef0182bf;
  0x1661ce10c1fd950bf57e6e8fe3aa69cbf2bed69d2c6e792bfd7e65c1214b638bf;
  0x18989057d6a3993bf5812f8c5072476bf19272c08da4688bf9f1d35b62ff5acbf;
  0x144f8a2dc9dc595bf1f462b671dcf683fbb2ba4e236418c3f39d10fcd9f9a87bf;
  0x1ee3149afafb451bf722252add33590bf3b552a0139a290bf59ed75782c82863f;
  0x1af3d88701e14ac3f8d0c1cca480a963f883fc32e85bb1c3f1eb7a82652dc92bf;
  0x1978e896e507a82bf97d53f1a8a354a3f01213ab7bfc497bf23b165b30bdca3bf;
  0x1e32616cd06e941bfdf4a56819005733fc99cb70effae8e3f3ac3a42af1cd59bf;
  0x10dcd7bf89bbe933f3aeced0c6dcd9d3f5b603af197977ebfac640bec747c7bbf;
  0x16fc228f9d64f873f1ce2b7fbc1dd603f2de1c0c94273713fd92e44c3dfc257bf;
  0x132597a3a6da17f3f84e0d413c60aa83fd47374ae25a3903fc85098b6699d7c3f;
  0x1c78da8b04cd69a3faa40503a5273963fece561f0e34060bf8a761fee0b447fbf;
  0x15f7d77d0127c74bfacc874fa12e980bf3f03f3351b39a1bfea0baf2c4ff979bf;
  0x1ea33bc5b9aa1423fc2bc53e0fa0da73fb0d95bad3944953f9c72b23a4807533f;
  0x1201619aca3d8603f84a48cfad75c70bf4098c710a3c132bf71a1dee306259ebf;
  0x10b6181ea8c70a3bf3b76d193433147bfe4aee48ed2e491bfce664fdaff8e93bf;
  0x1fa46eb9fd5fe7abf0e9743a5d440adbf8a4014df1608a2bf0e8e93644778633f;
  0x1f3f696d9ccb5923f4cfcc381e65095bff40c36354d6e3dbf83c49058c9be97bf;
  0x120507f8b917b8cbfe37f324f006a773fef68ef1d614dab3f2e6e74a7e226963f;
  0x1714fe517a181303f150d973026d48cbf9673311318518fbfa66074ac301f513f;
  0x1df90555bf58385bf4de5a2859e54a5bf4449e75a0e4439bf368acc8bfcce633f;
  0x175279addae74903fa02f2066bc7d5bbfbd91b593a1bd933fa0551657be659f3f;
  0x102931199ddbf6fbf1c57a7c8015480bffc4adcf52625923f929d5a44132a5c3f;
  0x1e38f9c5833567d3f32ba46a3394a51bf51f56e26b6957d3fb06e2f29e2cca53f;
  0x1302db4d9ec72933fe2748337f9016c3fbedb987143e78c3f665a0e845286a23f;
  0x17f2170a5028d5abf8ef7f69c330780bfb0018c8fae03653ff145d14f352780bf;
  0x10a9fc0610cbfa2bf60f5942fe101993f]%N.
Definition file_74 : list N := [0x1934e554d5059010076007b276465736372273a205b2827737472756374757265;
  0x1272c20273c693427292c20282763656e746572272c20273c693427295d2c2027;
  0x1666f727472616e5f6f72646572273a2046616c73652c20277368617065273a20;
  0x12831382c292c207d20202020202020202020202020202020202020202020200a;
  0x10000000004000000000000000500000000000000060000000000000007000000;
  0x10000000008000000000000000900000001000000040000000100000005000000;
  0x10100000006000000010000000700000001000000080000000100000009000000;
  0x10200000004000000020000000500000002000000060000000200000007000000;
  0x102000000080000000200000009000000]%N.
Definition file_75 : list N := [0x1934e554d5059010076007b276465736372273a205b282773706865726963616c;
  0x15f6861726d6f6e6963735f6d272c20273c693427295d2c2027666f727472616e;
  0x15f6f72646572273a2046616c73652c20277368617065273a2028332c292c207d;
  0x1202020202020202020202020202020202020202020202020202020202020200a;
  0x1ffffffff0000000001000000]%N.
Definition file_76 : list N := [0x1934e554d5059010076007b276465736372273a205b28276e272c20273c693427;
  0x1295d2c2027666f727472616e5f6f72646572273a2046616c73652c2027736861;
  0x17065273a2028332c292c207d2020202020202020202020202020202020202020;
  0x1202020202020202020202020202020202020202020202020202020202020200a;
  0x1000000000100000002000000]%N.
Definition file_77 : list N := [0x1934e554d5059010076007b276465736372273a20273c6638272c2027666f7274;
  0x172616e5f6f72646572273a2046616c73652c20277368617065273a202837382c;
  0x120332c20332c2033292c207d2020202020202020202020202020202020202020;
  0x1202020202020202020202020202020202020202020202020202020202020200a;
  0x154b19cfa270481bf2310c936afd0a6bf9c101cc1e25b9c3f609f06cbffc6363f;
  0x180bae5204752103f93ebb246f679513f36677898f8bf7d3f103115d6c8356cbf;
  0x14564cdca9171a53f20d52fb17ed48b3f21eaffead67aa43f74ad6ed247b09abf;
  0x180db62953aa840bf40b265a29ea53cbfe8257b481ca1453f54b19cfa270481bf;
  0x12310c936afd0a6bf9c101cc1e25b9c3f78db62953aa840bf40b265a29ea53cbf;
  0x1cc257b481ca1453f1ead9b4056e0693f0f798d24534c84bffe4eb897136c95bf;
  0x1589f06cbffc6363f00bae5204752103f9aebb246f679513fc40c3c106ad9703f;
  0x16f5afb2a550c963f6671643ffcc871bfe0c6ff59f651603fc3964226165b853f;
  0x1a735549d023a61bfad2323f4e68c66bf28adf51f958e55bf0446cf3a2ab5853f;
  0x1a5a1e023d3247abf0e4edd1fc1cd94bfd0bd0a7b0e8e8d3f343e6e4cfe0969bf;
  0x198f36fbae86190bf583a09a5026e6a3fc40c3c106ad9703f6f5afb2a550c963f;
  0x16671643ffcc871bf353e6e4cfe0969bf98f36fbae86190bf5c3a09a5026e6a3f;
  0x12a8b6121c46c59bf232b7866965b743f417e7fa1901c833fe1c6ff59f651603f;
  0x1c4964226165b853faa35549d023a61bf69e44ee19b20733fb28702703cf3953f;
  0x1343d344cfae372bf81530f4ac9e862bf27171de22cb385bf50002ea8d8ac623f;
  0x15a9dbb1d622b68bfa08259726dcf3dbf48ea6a6cb0b9853f093ff0888d587dbf;
  0x10aa32191394694bfacb87411c33f8e3f5853a093ff466d3f3cfc9c4a8bcc903f;
  0x111ef3d7431ea6cbf6ae44ee19b20733fb28702703cf3953f353d344cfae372bf;
  0x15753a093ff466d3f3cfc9c4a8bcc903f0eef3d7431ea6cbff86eade90cde5bbf;
  0x118650c5029a1753f7830900db632833f81530f4ac9e862bf27171de22cb385bf;
  0x14f002ea8d8ac623f65e818c55f1b3fbf55e24329cd1c5a3ff6e4351ea53093bf;
  0x1e0d25154428300bfa4775acc16b91b3fe580665ca25f54bfc81a243e508f59bf;
  0x1fc9b2d8a805b753f2cf84d3aa426b0bf62c864c75ace05bf10d61cffda4c1e3f;
  0x1556e889e07b569bfe1435ed9a1f2e2bee9923872a9cfff3e0aa65017c26037bf;
  0x165e818c55f1b3fbf53e24329cd1c5a3ff6e4351ea53093bfe0435ed9a1f2e2be;
  0x1e9923872a9cfff3e09a65017c26037bf6ffe799d48a2183fcae199d6964136bf;
  0x10abd83018223623fdfd25154428300bfa0775acc16b91b3fe480665ca25f54bf;
  0x1c40c3c106ad9703f6f5afb2a550c963f6671643ffcc871bfe0c6ff59f651603f;
  0x1c3964226165b853fa735549d023a61bfad2323f4e68c66bf28adf51f958e55bf;
  0x10446cf3a2ab5853fa5a1e023d3247abf0e4edd1fc1cd94bfd0bd0a7b0e8e8d3f;
  0x1343e6e4cfe0969bf98f36fbae86190bf583a09a5026e6a3fc40c3c106ad9703f;
  0x16f5afb2a550c963f6671643ffcc871bf353e6e4cfe0969bf98f36fbae86190bf;
  0x15c3a09a5026e6a3f2a8b6121c46c59bf232b7866965b743f417e7fa1901c833f;
  0x1e1c6ff59f651603fc4964226165b853faa35549d023a61bfe0abf0d0343c70bf;
  0x1bfb7365a28fe9dbfd11072d158e3823fd886799223bb64bffb62df8003126a3f;
  0x122219a4579c7663f2ca79308fdef74bfddd754a963f5813ffc0df75e0e6a96bf;
  0x10e33ed7ac46261bf2632cbec0a198dbf16ebc1beba8b94bf294347e0e743703f;
  0x1d8509cbd740b8c3f385582b9288456bfe0abf0d0343c70bfbfb7365a28fe9dbf;
  0x1d21072d158e3823f294347e0e743703fd8509cbd740b8c3f425582b9288456bf;
  0x1b63459d12b92ac3f66a4fb16ec7d3d3f2db1747bba95a5bfd986799223bb64bf;
  0x1fb62df8003126a3f23219a4579c7663f7d9b62cdcf47e93e04606e742beedb3e;
  0x1319cb3043e82d1be3e12b9bf95164e3fc371dc83f99e403fbbb73974a6d634bf;
  0x123de12bc4873833fc5f7b15417429b3f931fc0de337b663f4243fc069a74833f;
  0x1ca15167e74429b3fa23a99aa6079663f7bfd04fb701d4bbfcbc3aa5006f53dbf;
  0x1e0343a7a7fc7323f7d9b62cdcf47e93e04606e742beedb3e329cb3043e82d1be;
  0x17bfd04fb701d4bbfccc3aa5006f53dbfdf343a7a7fc7323fb61fc9a8f366abbf;
  0x1e0e9e0e4e5c680bf60136680f227993f3f12b9bf95164e3fc371dc83f99e403f;
  0x1bbb73974a6d634bfce58f906c7f3203f7d61fe84e5607b3f72f8a0ea491241bf;
  0x1d6101750555d32bfbfc63a7ad2a88dbf2a6983f1627e523fb38e04c64f2a57bf;
  0x11a99593517dba1bf3353a7649834883f99d100dc061844bf7ad0c80d74a57a3f;
  0x1b2751307a499813f5044cce39124073fdcc4985732b0623f7c056b25394e27bf;
  0x1d058f906c7f3203f7d61fe84e5607b3f74f8a0ea491241bf5044cce39124073f;
  0x1ddc4985732b0623f7c056b25394e27bf146efc62648f46bf9a1a38247c6d653f;
  0x1043b7f7f9738823fd6101750555d32bfc0c63a7ad2a88dbf2c6983f1627e523f;
  0x17fcf9df6751733bfade047b4ae7d513f4764aa960bd771bfa24f34aeb1191abf;
  0x1280452707be9373f32d200a5a66358bfdbf2eb7fa0b12cbf732ac56ad2494a3f;
  0x18f14e264cbd16abf4d121312ddff38bf89d3a94b51e7563ffd57815e2a5d77bf;
  0x1009de3ce773021bfe267577c0a7f3f3f00a638a5fa0f60bf7fcf9df6751733bf;
  0x1ade047b4ae7d513f4864aa960bd771bfff9ce3ce773021bfdf67577c0a7f3f3f;
  0x1ffa538a5fa0f60bfcfbb5be4d75106bf3321bcf71173243ffdb4813f33e244bf;
  0x1a04f34aeb1191abf270452707be9373f30d200a5a66358bf69e44ee19b20733f;
  0x1b28702703cf3953f343d344cfae372bf81530f4ac9e862bf27171de22cb385bf;
  0x150002ea8d8ac623f5a9dbb1d622b68bfa08259726dcf3dbf48ea6a6cb0b9853f;
  0x1093ff0888d587dbf0aa32191394694bfacb87411c33f8e3f5853a093ff466d3f;
  0x13cfc9c4a8bcc903f11ef3d7431ea6cbf6ae44ee19b20733fb28702703cf3953f;
  0x1353d344cfae372bf5753a093ff466d3f3cfc9c4a8bcc903f0eef3d7431ea6cbf;
  0x1f86eade90cde5bbf18650c5029a1753f7830900db632833f81530f4ac9e862bf;
  0x127171de22cb385bf4f002ea8d8ac623f7d9b62cdcf47e93e04606e742beedb3e;
  0x1319cb3043e82d1be3e12b9bf95164e3fc371dc83f99e403fbbb73974a6d634bf;
  0x123de12bc4873833fc5f7b15417429b3f931fc0de337b663f4243fc069a74833f;
  0x1ca15167e74429b3fa23a99aa6079663f7bfd04fb701d4bbfcbc3aa5006f53dbf;
  0x1e0343a7a7fc7323f7d9b62cdcf47e93e04606e742beedb3e329cb3043e82d1be;
  0x17bfd04fb701d4bbfccc3aa5006f53dbfdf343a7a7fc7323fb61fc9a8f366abbf;
  0x1e0e9e0e4e5c680bf60136680f227993f3f12b9bf95164e3fc371dc83f99e403f;
  0x1bbb73974a6d634bfdafffef0133c70bf2b2674a785e79ebf03c76605f82f8f3f;
  0x1838ad20d3d56573fd9779420365a71bf81af64d1d57072bf4e3057e925cf78bf;
  0x1689c59ab246c733f2bce93170ef18fbff29b366738904fbf5e3b8f552dc78ebf;
  0x153d5785e31838abf7dac8b94cbc868bf3b61ab21efc089bf6838ed8ffdf64cbf;
  0x1dbfffef0133c70bf2b2674a785e79ebf05c76605f82f8f3f7cac8b94cbc868bf;
  0x13b61ab21efc089bf7838ed8ffdf64cbf062923aed090ac3f37cf123b953b613f;
  0x1de6286d7eb5aa5bf828ad20d3d56573fdd779420365a71bf80af64d1d57072bf;
  0x1260fc2b8fe0119bfcffd9c510d6a7a3f14599c065a6c30bf972f1c3afc1c2dbf;
  0x1fe8390c326c08e3f08817640901e43bfbcc4e1ea3a67f3beb4fe6be103b6a0bf;
  0x1c0e9965b2dae843f72f067158bfe42bf14dc31bb62b0753fbbe632db52a9813f;
  0x11defafc57e41033f2793539fbc5664bf2c7988d4a54a193f240fc2b8fe0119bf;
  0x1cffd9c510d6a7a3f1c599c065a6c30bf1cefafc57e41033f2893539fbc5664bf;
  0x13c7988d4a54a193f2a9f75e985b540bf384080e30a08433fcc36817f5f09823f;
  0x1962f1c3afc1c2dbf008490c326c08e3f10817640901e43bf016d9cea1e6944bf;
  0x1f5c0980238c0623f2d2f57c7673885bf8eca986d519d283f6b806f96e69c46bf;
  0x1ec3540d94b97693f60b85d5034e53ebf314990914f625c3fc10d1ea89c1580bf;
  0x176afa3ab70f649bf4e9f357818da673fbd18d5b83c048bbf7b8c5d4924c22f3f;
  0x154c54593012d4dbf63d926dd5582703f016d9cea1e6944bff6c0980238c0623f;
  0x12e2f57c7673885bf798c5d4924c22f3f53c54593012d4dbf63d926dd5582703f;
  0x1fab88ecd0c2d10bfb0e07ff7cfba2d3f6a14207e590251bf8eca986d519d283f;
  0x16b806f96e69c46bfec3540d94b97693fce58f906c7f3203f7d61fe84e5607b3f;
  0x172f8a0ea491241bfd6101750555d32bfbfc63a7ad2a88dbf2a6983f1627e523f;
  0x1b38e04c64f2a57bf1a99593517dba1bf3353a7649834883f99d100dc061844bf;
  0x17ad0c80d74a57a3fb2751307a499813f5044cce39124073fdcc4985732b0623f;
  0x17c056b25394e27bfd058f906c7f3203f7d61fe84e5607b3f74f8a0ea491241bf;
  0x15044cce39124073fddc4985732b0623f7c056b25394e27bf146efc62648f46bf;
  0x19a1a38247c6d653f043b7f7f9738823fd6101750555d32bfc0c63a7ad2a88dbf;
  0x12c6983f1627e523f260fc2b8fe0119bfcffd9c510d6a7a3f14599c065a6c30bf;
  0x1972f1c3afc1c2dbffe8390c326c08e3f08817640901e43bfbcc4e1ea3a67f3be;
  0x1b4fe6be103b6a0bfc0e9965b2dae843f72f067158bfe42bf14dc31bb62b0753f;
  0x1bbe632db52a9813f1defafc57e41033f2793539fbc5664bf2c7988d4a54a193f;
  0x1240fc2b8fe0119bfcffd9c510d6a7a3f1c599c065a6c30bf1cefafc57e41033f;
  0x12893539fbc5664bf3c7988d4a54a193f2a9f75e985b540bf384080e30a08433f;
  0x1cc36817f5f09823f962f1c3afc1c2dbf008490c326c08e3f10817640901e43bf;
  0x1d2e825088a6b473f31fb66ab7fe2793f6f33f50e5a2c73bf97377407e93f413f;
  0x16e83d81c25840dbf30103e5bf0eb47bfe7c32158e4fa613f4a7860a125eab23f;
  0x1baadbce3d5b9a3bff0ea3e3e61b35bbf8b4966b6a913a33fa081e189692f563f;
  0x15879e82aee592cbfb5a579f1f8895f3f8a9457b0c3e2563fd0e825088a6b473f;
  0x12afb66ab7fe2793f6d33f50e5a2c73bf5879e82aee592cbfb5a579f1f8895f3f;
  0x1899457b0c3e2563f47ffd3ca5b465d3f6c18af8d6c3886bfeec4a7a3b339a1bf;
  0x196377407e93f413f6c84d81c25840dbf2c103e5bf0eb47bf43da4fa745dc35bf;
  0x1caab82006d4e96bfaecb66b5844f5a3f819dab7c9516e2be941307140a7542bf;
  0x18225f3293ec5053fe0468b3dcb724abf7982d68e034a7abf50fa41d2f78a833f;
  0x1329f72311c5b52bf665f42a98b849bbfffbc48e08aa1863f62f9839b9479ecbe;
  0x1fff9cf4b460e4dbfac39e7cfc422113f43da4fa745dc35bfc8ab82006d4e96bf;
  0x1accb66b5844f5a3f61f9839b9479ecbe00facf4b460e4dbfa839e7cfc422113f;
  0x1ceed771f458443bf0d2ac7eac04b7e3f1c88caac0675813f839dab7c9516e2be;
  0x1941307140a7542bf8225f3293ec5053ffd1f483e32343bbf56a910008318633f;
  0x146cab27e0f836f3f049ade5d9f34f0bed73ec6833ec0163f31323a589bc5223f;
  0x1122d46063471073f5c25de7d1741083f47ffe4f833f37c3fca7a199a7166703f;
  0x1d3dec8753db896bfd0a4e57937559ebf13ac414a0388233f3e183878826b4bbf;
  0x1082ff135d39f56bffb1f483e32343bbf54a910008318633f44cab27e0f836f3f;
  0x113ac414a0388233f3e183878826b4bbf082ff135d39f56bfcb3efe20eb3bde3e;
  0x19017af208cd5303f9933a8c5a15f7e3f039ade5d9f34f0bed63ec6833ec0163f;
  0x130323a589bc5223f43da4fa745dc35bfcaab82006d4e96bfaecb66b5844f5a3f;
  0x1819dab7c9516e2be941307140a7542bf8225f3293ec5053fe0468b3dcb724abf;
  0x17982d68e034a7abf50fa41d2f78a833f329f72311c5b52bf665f42a98b849bbf;
  0x1ffbc48e08aa1863f62f9839b9479ecbefff9cf4b460e4dbfac39e7cfc422113f;
  0x143da4fa745dc35bfc8ab82006d4e96bfaccb66b5844f5a3f61f9839b9479ecbe;
  0x100facf4b460e4dbfa839e7cfc422113fceed771f458443bf0d2ac7eac04b7e3f;
  0x11c88caac0675813f839dab7c9516e2be941307140a7542bf8225f3293ec5053f;
  0x13adafd9e08f590bf2076ba725d98523f443bb647e1ed7b3f0d59e121906651bf;
  0x10cee9401fa6c48bff4af9532a722403f75890cc722c09b3f4700becdbef3953f;
  0x159a658e8b9619ebfaaf94a8a0af5793f883af216a184903f4463f966c12995bf;
  0x12064f0bbece8433f32b87918806c5a3f7c9d1b69abb237bf3bdafd9e08f590bf;
  0x10076ba725d98523f473bb647e1ed7b3f2064f0bbece8433f32b87918806c5a3f;
  0x17d9d1b69abb237bf3482235531db6cbf8eee523fee419ebf08ea07bc4d9e8bbf;
  0x10e59e121906651bf0cee9401fa6c48bff7af9532a722403fa3199bb5794c913f;
  0x168045729e724953f18f7873ae14081bf48b0da4cbd8a513fd000ce0a0271553f;
  0x14ce23415fb7e41bf3e2f206d8cec9abf52bf10d47bc28ebf31a937ff3d9c943f;
  0x1de51ee7d435e75bfbc49a024d5ff853f8809aaedf7b1833f3a548269067743bf;
  0x1647623e5b9ca47bf11cf2135fa69333fa4199bb5794c913f68045729e724953f;
  0x119f7873ae14081bf3a548269067743bf647623e5b9ca47bf13cf2135fa69333f;
  0x1d4be804e21de703f0b24a104feae963fd8c37a1e8e52743f49b0da4cbd8a513f;
  0x1d000ce0a0271553f4fe23415fb7e41bf65e818c55f1b3fbf55e24329cd1c5a3f;
  0x1f6e4351ea53093bfe0d25154428300bfa4775acc16b91b3fe580665ca25f54bf;
  0x1c81a243e508f59bffc9b2d8a805b753f2cf84d3aa426b0bf62c864c75ace05bf;
  0x110d61cffda4c1e3f556e889e07b569bfe1435ed9a1f2e2bee9923872a9cfff3e;
  0x10aa65017c26037bf65e818c55f1b3fbf53e24329cd1c5a3ff6e4351ea53093bf;
  0x1e0435ed9a1f2e2bee9923872a9cfff3e09a65017c26037bf6ffe799d48a2183f;
  0x1cae199d6964136bf0abd83018223623fdfd25154428300bfa0775acc16b91b3f;
  0x1e480665ca25f54bf7fcf9df6751733bfade047b4ae7d513f4764aa960bd771bf;
  0x1a24f34aeb1191abf280452707be9373f32d200a5a66358bfdbf2eb7fa0b12cbf;
  0x1732ac56ad2494a3f8f14e264cbd16abf4d121312ddff38bf89d3a94b51e7563f;
  0x1fd57815e2a5d77bf009de3ce773021bfe267577c0a7f3f3f00a638a5fa0f60bf;
  0x17fcf9df6751733bfade047b4ae7d513f4864aa960bd771bfff9ce3ce773021bf;
  0x1df67577c0a7f3f3fffa538a5fa0f60bfcfbb5be4d75106bf3321bcf71173243f;
  0x1fdb4813f33e244bfa04f34aeb1191abf270452707be9373f30d200a5a66358bf;
  0x1016d9cea1e6944bff5c0980238c0623f2d2f57c7673885bf8eca986d519d283f;
  0x16b806f96e69c46bfec3540d94b97693f60b85d5034e53ebf314990914f625c3f;
  0x1c10d1ea89c1580bf76afa3ab70f649bf4e9f357818da673fbd18d5b83c048bbf;
  0x17b8c5d4924c22f3f54c54593012d4dbf63d926dd5582703f016d9cea1e6944bf;
  0x1f6c0980238c0623f2e2f57c7673885bf798c5d4924c22f3f53c54593012d4dbf;
  0x163d926dd5582703ffab88ecd0c2d10bfb0e07ff7cfba2d3f6a14207e590251bf;
  0x18eca986d519d283f6b806f96e69c46bfec3540d94b97693ffd1f483e32343bbf;
  0x156a910008318633f46cab27e0f836f3f049ade5d9f34f0bed73ec6833ec0163f;
  0x131323a589bc5223f122d46063471073f5c25de7d1741083f47ffe4f833f37c3f;
  0x1ca7a199a7166703fd3dec8753db896bfd0a4e57937559ebf13ac414a0388233f;
  0x13e183878826b4bbf082ff135d39f56bffb1f483e32343bbf54a910008318633f;
  0x144cab27e0f836f3f13ac414a0388233f3e183878826b4bbf082ff135d39f56bf;
  0x1cb3efe20eb3bde3e9017af208cd5303f9933a8c5a15f7e3f039ade5d9f34f0be;
  0x1d63ec6833ec0163f30323a589bc5223fa3199bb5794c913f68045729e724953f;
  0x118f7873ae14081bf48b0da4cbd8a513fd000ce0a0271553f4ce23415fb7e41bf;
  0x13e2f206d8cec9abf52bf10d47bc28ebf31a937ff3d9c943fde51ee7d435e75bf;
  0x1bc49a024d5ff853f8809aaedf7b1833f3a548269067743bf647623e5b9ca47bf;
  0x111cf2135fa69333fa4199bb5794c913f68045729e724953f19f7873ae14081bf;
  0x13a548269067743bf647623e5b9ca47bf13cf2135fa69333fd4be804e21de703f;
  0x10b24a104feae963fd8c37a1e8e52743f49b0da4cbd8a513fd000ce0a0271553f;
  0x14fe23415fb7e41bfb775bc3c29e78ebfe2ed8447a6999cbff0db7c4a5579a33f;
  0x1a17b90cfdf3752bf0ccdacf0824453bf0080b7174612b2be9b9c40e9c02e9d3f;
  0x1c36e3bbd26977d3f902039d64613a83f708ff2ff74e4633ff02fe19237c17c3f;
  0x11a4876b52286a53fcccc71ffc978363fb7ed71b39dd25f3f8c695af7b99744bf;
  0x1b975bc3c29e78ebfe1ed8447a6999cbff2db7c4a5579a33fcccc71ffc978363f;
  0x1b7ed71b39dd25f3f92695af7b99744bf02f4bf88e1da70bfe6f0a79da9fd96bf;
  0x11e4db60e8a738abfa27b90cfdf3752bf0ccdacf0824453bf008ab7174612b2be;
  0x129aec8d5caa084bf300c640b4641a4bf3eb2275a326a7e3f6917dd11c3f26abf;
  0x13840aaad5a2d6b3fb6ad1c6dd5bb603ff5a75c1538b67c3f9593fe593dd8763f;
  0x1a0898e1dda6095bf76e95da1c9cf883f16f44cbe7deaa03f7d056e03406999bf;
  0x124dfc5a53021723f12105d1914d67dbfc8198466a4f865bf28aec8d5caa084bf;
  0x12f0c640b4641a4bf3cb2275a326a7e3f24dfc5a53021723f12105d1914d67dbf;
  0x1ca198466a4f865bf11fd26fa835638bf888591fe5b0d83bf71ae4c04862590bf;
  0x16817dd11c3f26abf3840aaad5a2d6b3fb6ad1c6dd5bb603f3098f43d0fff853f;
  0x1d90dfdae2bed993fb6d82f661bce7ebf6e095829f61d673f20db947d553f7b3f;
  0x16dca5ba7f32f60bf9eb68e6a56217cbf90caf89872bc5ebfa6bbb2f90d43893f;
  0x15f983159fada89bf6afead49bfa28fbf312db97d49c2903fbaed594fdb206ebf;
  0x107150d8976c181bf76533ae7cb18653f2f98f43d0fff853fd80dfdae2bed993f;
  0x1b6d82f661bce7ebfbaed594fdb206ebf07150d8976c181bf76533ae7cb18653f;
  0x18cf76bf214ab3a3f314e5b3363478f3f0c000304b6a87d3f6d095829f61d673f;
  0x120db947d553f7b3f6dca5ba7f32f60bf6fa0be8246e445bf0d1596cfc02a8d3f;
  0x1009e090243fa183fda6f284467a63e3f9efd346a016b84bf10691cb8387c11bf;
  0x1e42abe59359c22bfe2c1806741526ebf9b576a41a67e813f89ee3a7d0bb3403f;
  0x1f6e8c2d79b0392bf98b0690bed4d813f3c42c7f0178648bf88cedd4a4056903f;
  0x140ca38e90ffb1b3f70a0be8246e445bf0d1596cfc02a8d3f809e090243fa183f;
  0x13b42c7f0178648bf88cedd4a4056903f80ca38e90ffb1b3fd8d327c287a402bf;
  0x1539193690e7478bfdcdc9706b176813fda6f284467a63e3f9efd346a016b84bf;
  0x120691cb8387c11bf3098f43d0fff853fd90dfdae2bed993fb6d82f661bce7ebf;
  0x16e095829f61d673f20db947d553f7b3f6dca5ba7f32f60bf9eb68e6a56217cbf;
  0x190caf89872bc5ebfa6bbb2f90d43893f5f983159fada89bf6afead49bfa28fbf;
  0x1312db97d49c2903fbaed594fdb206ebf07150d8976c181bf76533ae7cb18653f;
  0x12f98f43d0fff853fd80dfdae2bed993fb6d82f661bce7ebfbaed594fdb206ebf;
  0x107150d8976c181bf76533ae7cb18653f8cf76bf214ab3a3f314e5b3363478f3f;
  0x10c000304b6a87d3f6d095829f61d673f20db947d553f7b3f6dca5ba7f32f60bf;
  0x1b884fe80dcd883bfb43682132297a0bf3596ecd8083a8a3f135370cf5e1375bf;
  0x1fb149d1800a8813fcf43df641a45753fd8ad125b064956bf2892e50b53412ebf;
  0x1ba9ddb2d034692bf988123170be1803fdb94ffba0e4a89bfee0317d46ce896bf;
  0x10e137e3b9b3a73bfe7a99d00958b63bfb2112c8bcb99653fb784fe80dcd883bf;
  0x1b33682132297a0bf3496ecd8083a8a3f0e137e3b9b3a73bfe9a99d00958b63bf;
  0x1ae112c8bcb99653f19e388b308fba53f7a899eb4f6547b3f2a790194bcf6a3bf;
  0x1125370cf5e1375bffd149d1800a8813fd043df641a45753fea734e20280c28bf;
  0x1b00d5141907b23bf4d055b728ca9133ff02968f18c3d513ff089d1d97eef4b3f;
  0x1d48e42976e313cbf0947613e1e7e7b3f6c15184ab856993f3cb1ea305b0f6f3f;
  0x1c8c20f8eed4e753f2025c4fd0d16983fad4212eeeb0e723f5514fa9b3dfe813f;
  0x1b615e68ab8277d3f1daa1e3b896c6dbfe5734e20280c28bf9e0d5141907b23bf;
  0x154055b728ca9133f5514fa9b3dfe813fb715e68ab8277d3f1aaa1e3b896c6dbf;
  0x1956b46ba155aa6bf855c5de2957290bfa77799f5e2f7983fef2968f18c3d513f;
  0x1f189d1d97eef4b3fd38e42976e313cbfc0f45e4ffcdf3fbf789da8119dec773f;
  0x1b0e705bac42e3c3f882d761f2084563faf8067575ce690bf9840bb306fe853bf;
  0x11924122514fc5d3f8ada0bea905c98bf75b9ffa50eaf7a3f9c92411f653638bf;
  0x136f29fcc5c7f653f169dbacf2753813f64e81c86c30633bfd3b4d191aa8f6c3f;
  0x1c0db4f458ed2303fbff45e4ffcdf3fbf789da8119dec773fa8e705bac42e3c3f;
  0x164e81c86c30633bfd3b4d191aa8f6c3fc0db4f458ed2303f3377d95266d0363f;
  0x144967ec03c8c78bfb16d15a08506803f872d761f2084563fb08067575ce690bf;
  0x19e40bb306fe853bf45403c3f47e038bfb1a4fd4185ce563f441e13c988b777bf;
  0x170e0d15ce2011bbf86c64c39bdc2383f1396396eb7bf59bfb2df2665b49834bf;
  0x1b5ceb1f926e2523f73126c7acba473bf01c1f77f8b7a3dbfb663eaafd6065b3f;
  0x1e6211034ae1c7cbf1707ea8cc32020bf21eea0e99b923d3f056de3ffbfc05ebf;
  0x145403c3f47e038bfb0a4fd4185ce563f431e13c988b777bf1707ea8cc32020bf;
  0x121eea0e99b923d3f056de3ffbfc05ebf570413687e4fffbe179fb8a7cbb51c3f;
  0x1750b7fa887f63dbf71e0d15ce2011bbf86c64c39bdc2383f1296396eb7bf59bf;
  0x16fa0be8246e445bf0d1596cfc02a8d3f009e090243fa183fda6f284467a63e3f;
  0x19efd346a016b84bf10691cb8387c11bfe42abe59359c22bfe2c1806741526ebf;
  0x19b576a41a67e813f89ee3a7d0bb3403ff6e8c2d79b0392bf98b0690bed4d813f;
  0x13c42c7f0178648bf88cedd4a4056903f40ca38e90ffb1b3f70a0be8246e445bf;
  0x10d1596cfc02a8d3f809e090243fa183f3b42c7f0178648bf88cedd4a4056903f;
  0x180ca38e90ffb1b3fd8d327c287a402bf539193690e7478bfdcdc9706b176813f;
  0x1da6f284467a63e3f9efd346a016b84bf20691cb8387c11bfea734e20280c28bf;
  0x1b00d5141907b23bf4d055b728ca9133ff02968f18c3d513ff089d1d97eef4b3f;
  0x1d48e42976e313cbf0947613e1e7e7b3f6c15184ab856993f3cb1ea305b0f6f3f;
  0x1c8c20f8eed4e753f2025c4fd0d16983fad4212eeeb0e723f5514fa9b3dfe813f;
  0x1b615e68ab8277d3f1daa1e3b896c6dbfe5734e20280c28bf9e0d5141907b23bf;
  0x154055b728ca9133f5514fa9b3dfe813fb715e68ab8277d3f1aaa1e3b896c6dbf;
  0x1956b46ba155aa6bf855c5de2957290bfa77799f5e2f7983fef2968f18c3d513f;
  0x1f189d1d97eef4b3fd38e42976e313cbf16a0437599a53e3f1c69cce0d26192bf;
  0x1d93be665aed2393fa7f26e47bc7563bfe0e1a3e68a05413fba2b379f92be5c3f;
  0x168343d0385a051bf1e042498e80e943fc8d22bcd82a69cbf6a7ed0e0a27875bf;
  0x164cc4d67a42b90bffbe08f10f39f95bfb607abcec85380bf85f41523f5f496bf;
  0x198a1366157c46b3f15a0437599a53e3f1c69cce0d26192bfb53be665aed2393f;
  0x1b607abcec85380bf85f41523f5f496bf93a1366157c46b3fcc1d20837daba63f;
  0x1105a39823f4e8b3f5a880961872aa5bfa7f26e47bc7563bfd0e1a3e68a05413f;
  0x1b92b379f92be5c3fbeda60a00729393f880520cc4c9b6f3f56b27f21d17d42bf;
  0x1d03ed798a3084c3fe1a62dceb09b813f74c1e46d739a54bf9808c4521b8176bf;
  0x1a700a65aaccda4bfd35059464405903ff4226acec1ca3ebf742099826432843f;
  0x108f0ac1e83ea803fc03d4c21a70911bf2cee2b50296745bf6d46c8532b0b193f;
  0x1bdda60a00729393f880520cc4c9b6f3f55b27f21d17d42bfc03d4c21a70911bf;
  0x12cee2b50296745bf6b46c8532b0b193f65104abaa92f43bfa4274b77f3d0813f;
  0x141555b92a643813fcf3ed798a3084c3fe2a62dceb09b813f72c1e46d739a54bf;
  0x1c0f45e4ffcdf3fbf789da8119dec773fb0e705bac42e3c3f882d761f2084563f;
  0x1af8067575ce690bf9840bb306fe853bf1924122514fc5d3f8ada0bea905c98bf;
  0x175b9ffa50eaf7a3f9c92411f653638bf36f29fcc5c7f653f169dbacf2753813f;
  0x164e81c86c30633bfd3b4d191aa8f6c3fc0db4f458ed2303fbff45e4ffcdf3fbf;
  0x1789da8119dec773fa8e705bac42e3c3f64e81c86c30633bfd3b4d191aa8f6c3f;
  0x1c0db4f458ed2303f3377d95266d0363f44967ec03c8c78bfb16d15a08506803f;
  0x1872d761f2084563fb08067575ce690bf9e40bb306fe853bfbeda60a00729393f;
  0x1880520cc4c9b6f3f56b27f21d17d42bfd03ed798a3084c3fe1a62dceb09b813f;
  0x174c1e46d739a54bf9808c4521b8176bfa700a65aaccda4bfd35059464405903f;
  0x1f4226acec1ca3ebf742099826432843f08f0ac1e83ea803fc03d4c21a70911bf;
  0x12cee2b50296745bf6d46c8532b0b193fbdda60a00729393f880520cc4c9b6f3f;
  0x155b27f21d17d42bfc03d4c21a70911bf2cee2b50296745bf6b46c8532b0b193f;
  0x165104abaa92f43bfa4274b77f3d0813f41555b92a643813fcf3ed798a3084c3f;
  0x1e2a62dceb09b813f72c1e46d739a54bf27793bf8ad46663f4bf826caf5d38b3f;
  0x155f2cadbc33779bffc4861b5460566bf504a03d049ad6f3f14fd326686256e3f;
  0x16a5c4bc48416773f78da525f88dab13fd194e90e4f84a3bfc23619e47f606c3f;
  0x17a42baae76f6973f6bc5ad3058e3a03f00b6cc8a600af43e76e6c3e00c0987bf;
  0x151654b3e9b368dbf29793bf8ad46663f4df826caf5d38b3f56f2cadbc33779bf;
  0x1c0b5cc8a600af43e77e6c3e00c0987bf51654b3e9b368dbf6050fe610366433f;
  0x123f7c59d821687bfabb30e3dd4939bbffb4861b5460566bf504a03d049ad6f3f;
  0x118fd326686256e3f3e07467576ec64bf64852aecb83b98bf6b4c412f747e6d3f;
  0x19597e64abd253d3ff4ecaf3500e1703f20c6b5d5058b44bff7a68428e30761bf;
  0x18e6db88a108a74bfe5f3fcc65f8e853f7ee742c2f7bf71bf41d925aa6c869abf;
  0x13ee44ae988108c3f461fb095a65c463fd0332d0826e6793f7ce5c05673854fbf;
  0x14007467576ec64bf65852aecb83b98bf6d4c412f747e6d3f481fb095a65c463f;
  0x1d2332d0826e6793f80e5c05673854fbfddfa0ce7b87841bffd427c83e50f833f;
  0x185d538c4ff17813f9a97e64abd253d3ff6ecaf3500e1703f27c6b5d5058b44bf;
  0x11cd5b5a21d6b10bfe64b384a4acb383fdec77339af0a663f29918f131656ec3e;
  0x17748b71b576515bf182ad6854e0543bf15a99d5dc6e01b3fc5a85cd1eeec33bf;
  0x100c2ed299941763fd81d44fc28ff5b3f74efe9be4f7284bfe1304d93723bb0bf;
  0x118129de5c5b036bff278ee340722613f3e64e5aa47768e3f1cd5b5a21d6b10bf;
  0x1e74b384a4acb383fdec77339af0a663f18129de5c5b036bff178ee340722613f;
  0x13e64e5aa47768e3f20fdaf57b068273fb98522cc7f4348bf753bcf0df215633f;
  0x129918f131656ec3e7748b71b576515bf172ad6854e0543bf3e07467576ec64bf;
  0x164852aecb83b98bf6b4c412f747e6d3f9597e64abd253d3ff4ecaf3500e1703f;
  0x120c6b5d5058b44bff7a68428e30761bf8e6db88a108a74bfe5f3fcc65f8e853f;
  0x17ee742c2f7bf71bf41d925aa6c869abf3ee44ae988108c3f461fb095a65c463f;
  0x1d0332d0826e6793f7ce5c05673854fbf4007467576ec64bf65852aecb83b98bf;
  0x16d4c412f747e6d3f481fb095a65c463fd2332d0826e6793f80e5c05673854fbf;
  0x1ddfa0ce7b87841bffd427c83e50f833f85d538c4ff17813f9a97e64abd253d3f;
  0x1f6ecaf3500e1703f27c6b5d5058b44bfad2bcb7102c394bf406bed050e43663f;
  0x156c73f6683c6793f4501e9ed771d793f40f35d98fc595f3f6d943203e93562bf;
  0x18f8a9f3c6e13993f34da743658747c3f3c961becb3929bbf42d82fcb0441913f;
  0x162e5bd1e5135933f1ef12667ea6f9abf99ab0ed5448578bfdeafad11bbea86bf;
  0x15dad5c34b8b56a3fae2bcb7102c394bf486bed050e43663f56c73f6683c6793f;
  0x197ab0ed5448578bfe0afad11bbea86bf5dad5c34b8b56a3f11b7be2b2a6b6fbf;
  0x1757bbbcf3a5ba0bfaa5ab42614eb8abf4301e9ed771d793f40f35d98fc595f3f;
  0x169943203e93562bf95ec73409160973ffcd76c2b5773953fc636f0bede4284bf;
  0x1be6a97c2d3ef7abfc469c75b7fb778bff505a078aa58673fb0f58ed771f296bf;
  0x198b2f1ae1ea95fbf4a1c9d0884cb903fc53c3eb50da289bf7bcf9f2d6e447d3f;
  0x1fefd02e54bcf883fb0a75802b0b9753fed2b2e1b50ef733ffe73ac5e5bd462bf;
  0x196ec73409160973ffcd76c2b5773953fc636f0bede4284bfaea75802b0b9753f;
  0x1ed2b2e1b50ef733ffd73ac5e5bd462bfe4fac032ace4713f6bd5b8dd822e973f;
  0x14a0af7c428a6733fbd6a97c2d3ef7abfc669c75b7fb778bff305a078aa58673f;
  0x145403c3f47e038bfb1a4fd4185ce563f441e13c988b777bf70e0d15ce2011bbf;
  0x186c64c39bdc2383f1396396eb7bf59bfb2df2665b49834bfb5ceb1f926e2523f;
  0x173126c7acba473bf01c1f77f8b7a3dbfb663eaafd6065b3fe6211034ae1c7cbf;
  0x11707ea8cc32020bf21eea0e99b923d3f056de3ffbfc05ebf45403c3f47e038bf;
  0x1b0a4fd4185ce563f431e13c988b777bf1707ea8cc32020bf21eea0e99b923d3f;
  0x1056de3ffbfc05ebf570413687e4fffbe179fb8a7cbb51c3f750b7fa887f63dbf;
  0x171e0d15ce2011bbf86c64c39bdc2383f1296396eb7bf59bf1cd5b5a21d6b10bf;
  0x1e64b384a4acb383fdec77339af0a663f29918f131656ec3e7748b71b576515bf;
  0x1182ad6854e0543bf15a99d5dc6e01b3fc5a85cd1eeec33bf00c2ed299941763f;
  0x1d81d44fc28ff5b3f74efe9be4f7284bfe1304d93723bb0bf18129de5c5b036bf;
  0x1f278ee340722613f3e64e5aa47768e3f1cd5b5a21d6b10bfe74b384a4acb383f;
  0x1dec77339af0a663f18129de5c5b036bff178ee340722613f3e64e5aa47768e3f;
  0x120fdaf57b068273fb98522cc7f4348bf753bcf0df215633f29918f131656ec3e;
  0x17748b71b576515bf172ad6854e0543bf95ec73409160973ffcd76c2b5773953f;
  0x1c636f0bede4284bfbe6a97c2d3ef7abfc469c75b7fb778bff505a078aa58673f;
  0x1b0f58ed771f296bf98b2f1ae1ea95fbf4a1c9d0884cb903fc53c3eb50da289bf;
  0x17bcf9f2d6e447d3ffefd02e54bcf883fb0a75802b0b9753fed2b2e1b50ef733f;
  0x1fe73ac5e5bd462bf96ec73409160973ffcd76c2b5773953fc636f0bede4284bf;
  0x1aea75802b0b9753fed2b2e1b50ef733ffd73ac5e5bd462bfe4fac032ace4713f;
  0x16bd5b8dd822e973f4a0af7c428a6733fbd6a97c2d3ef7abfc669c75b7fb778bf;
  0x1f305a078aa58673fbf45d405a5ec96bf7793b5a86c4397bff0d31c55f79b8a3f;
  0x177ea0041b04d7b3f7e7aa1e4e880773f94c13680ecdd46bf86f3c5e2f328973f;
  0x1140e976933c2513f2d887d74b77291bf1277b5f1fc0d873ffcd9e590ee79533f;
  0x17ea6dbf3a7c6ad3f568697879dcd73bf48773f747d597ebf9ed93dd318e985bf;
  0x1c045d405a5ec96bf7793b5a86c4397bff0d31c55f79b8a3f548697879dcd73bf;
  0x148773f747d597ebf9ed93dd318e985bfc9671637a28072bfdc79ffaa1c8996bf;
  0x14db75651b9517bbf76ea0041b04d7b3f807aa1e4e880773f90c13680ecdd46bf;
  0x180bea358e61b85bf9e9153694103a0bf13e027fd3eec853fb43589b9cc7169bf;
  0x158de2f62f8c259bfd8b34e897283603f60c0006a60da5b3fdc2cd015eaa0933f;
  0x1609284db3ee493bfa643c510a1448c3f5ef2355b63fca43f3e2cd6c52678a2bf;
  0x14b2893ef4d096d3fb8e6bd1498c469bfce2a6f45fca456bf81bea358e61b85bf;
  0x19e9153694103a0bf14e027fd3eec853f472893ef4d096d3fb8e6bd1498c469bf;
  0x1ca2a6f45fca456bf6765c23af05a6d3f02502ceede8780bfff84e9859b8d9bbf;
  0x1b23589b9cc7169bf48de2f62f8c259bfd6b34e897283603fcc917c72793e7f3f;
  0x11af1f470ddae963fa14ff91dca6378bfb09311b69e8f6f3f58e87bc2c6e9863f;
  0x1fa630b3222a368bf9180cec1bf5f72bf6071539defd1463fd660d3d464c3863f;
  0x1dd6bf69a21b884bfec7e4e97180890bfb71993f8fdc38f3f3a7218ae50a576bf;
  0x141e52eb8d47090bf583dd1d483ad713fcd917c72793e7f3f1af1f470ddae963f;
  0x1a34ff91dca6378bf387218ae50a576bf41e52eb8d47090bf563dd1d483ad713f;
  0x1178fb5184a1460bfe8a3fa35856e803fda62efdfc8ba823fae9311b69e8f6f3f;
  0x157e87bc2c6e9863ff8630b3222a368bfc89042b45ab9593fb346dc6d6f0a903f;
  0x17e29c957c5d562bfab21705407f04cbfa7b4fa576e0b82bf2790853b2130553f;
  0x177eba1148eda52bf5acc6b407f27693f3b2fbc3730f5823fa6ce9949e6f16fbf;
  0x17869a7295df098bf21f6f6f49a338b3fc632320310e55f3f74d9f4ce7ee3933f;
  0x1686c18576d5a67bfc79042b45ab9593fb346dc6d6f0a903f7e29c957c5d562bf;
  0x1c632320310e55f3f74d9f4ce7ee3933f666c18576d5a67bfaca86d0db41f59bf;
  0x1c0e43d91927f48bf2a3c915a021b843faa21705407f04cbfa8b4fa576e0b82bf;
  0x12790853b2130553f0a1ce946f22b523f4452a83028cb7abf8cb7e360a21364bf;
  0x1f2a63a89fde2213f5f7eb3e3955f4abf88bf30a807c333bf57cb762ccb1f703f;
  0x1f241c87a697c97bff9b4665875014fbf42f8e62587fe2b3f72c55f570f0550bf;
  0x13e429d5304d27d3f63b128c1dab2033f34ae1b178a0b2dbf261c4ffa85c315bf;
  0x10b1ce946f22b523f4652a83028cb7abf8cb7e360a21364bf63b128c1dab2033f;
  0x134ae1b178a0b2dbf271c4ffa85c315bf423fc06a83d916bf63a658142e154a3f;
  0x1fa6a52d16b45803ff2a63a89fde2213f607eb3e3955f4abf88bf30a807c333bf;
  0x1cc917c72793e7f3f1af1f470ddae963fa14ff91dca6378bfb09311b69e8f6f3f;
  0x158e87bc2c6e9863ffa630b3222a368bf9180cec1bf5f72bf6071539defd1463f;
  0x1d660d3d464c3863fdd6bf69a21b884bfec7e4e97180890bfb71993f8fdc38f3f;
  0x13a7218ae50a576bf41e52eb8d47090bf583dd1d483ad713fcd917c72793e7f3f;
  0x11af1f470ddae963fa34ff91dca6378bf387218ae50a576bf41e52eb8d47090bf;
  0x1563dd1d483ad713f178fb5184a1460bfe8a3fa35856e803fda62efdfc8ba823f;
  0x1ae9311b69e8f6f3f57e87bc2c6e9863ff8630b3222a368bf7430d4945dfd7dbf;
  0x1c352f67a3c4395bf58794eef69909f3f2f2c097f0ed185bf001368d227b225bf;
  0x1cf9dcca0d57c923f088033a2268757bf907dff3cda13633f10d525bd84ff81bf;
  0x1b840f44e2850783fd0583decf725763f208330de6c7c3b3f00beaaec20c91bbf;
  0x15efaabf8d3607c3f28b43df351bb873f7430d4945dfd7dbfc352f67a3c4395bf;
  0x15b794eef69909f3f80beaaec20c91bbf5cfaabf8d3607c3f29b43df351bb873f;
  0x10e80d11b7810a03f2a6c665f45c79d3fc8db8eaf1fd0a4bf2f2c097f0ed185bf;
  0x1401268d227b225bfce9dcca0d57c923f4c34b4b6353948bf167d7d98c34051bf;
  0x118370941781c3a3f8aced7b4617f723fc0153e797a597a3f439027e168f063bf;
  0x109fa4065e98e663f69505632bfc5943ff849c22daa45773f45cfc31571fc633f;
  0x11f925dd37f50943f2e18d4621cf7773f9a0f8ed5a1d6763f013b9f053844803f;
  0x1037ff886429e68bf4c34b4b6353948bf167d7d98c34051bf18370941781c3a3f;
  0x19a0f8ed5a1d6763f013b9f053844803f037ff886429e68bfd38681dc6a729fbf;
  0x18a1e1cb13b0a9cbf4ee4035b5e49983f8aced7b4617f723fc1153e797a597a3f;
  0x1439027e168f063bf3cde2c4ecc054bbfa10e1dd9fd9c7b3f468f0190f651533f;
  0x15dc8987a5e9b5d3f5b44388e05418ebf893c2717f62a65bfd6e94486d3da613f;
  0x1e9a786cf457b92bfa148d518a4a4733fe0897491c5650cbf300cd04836c32b3f;
  0x1ad2e5517e95c803ffe6304c8087e43bfbc845c5b18eb733fdf38f2d05edf4b3f;
  0x13ede2c4ecc054bbfa10e1dd9fd9c7b3f468f0190f651533fff6304c8087e43bf;
  0x1be845c5b18eb733fdc38f2d05edf4b3f323493aa7205503fd6a1eff42ed880bf;
  0x1246616256bae7a3f5fc8987a5e9b5d3f5e44388e05418ebf863c2717f62a65bf;
  0x1e403cf8b119b543fb828f8ca50fb7cbf4063d4b108159bbf4adeb8f844413f3f;
  0x1423a6446d7fa65bf6caf02f70a8a84bf8eba61d2ab32503ff4ce689d108e75bf;
  0x11255f93a07398abfd061e69cb76a5d3fff126047d71284bf49ec21542c7c9ebf;
  0x1c0d0eca9a36c453f30c016fd12226ebfa256f72879288cbfe303cf8b119b543f;
  0x1b928f8ca50fb7cbf4263d4b108159bbfbfd0eca9a36c453f2ec016fd12226ebf;
  0x1a156f72879288cbfe05501532feb343f94eafcec4c8358bfd084c8ad1cde543f;
  0x14adeb8f844413f3f413a6446d7fa65bf6caf02f70a8a84bfc89042b45ab9593f;
  0x1b346dc6d6f0a903f7e29c957c5d562bfab21705407f04cbfa7b4fa576e0b82bf;
  0x12790853b2130553f77eba1148eda52bf5acc6b407f27693f3b2fbc3730f5823f;
  0x1a6ce9949e6f16fbf7869a7295df098bf21f6f6f49a338b3fc632320310e55f3f;
  0x174d9f4ce7ee3933f686c18576d5a67bfc79042b45ab9593fb346dc6d6f0a903f;
  0x17e29c957c5d562bfc632320310e55f3f74d9f4ce7ee3933f666c18576d5a67bf;
  0x1aca86d0db41f59bfc0e43d91927f48bf2a3c915a021b843faa21705407f04cbf;
  0x1a8b4fa576e0b82bf2790853b2130553f4c34b4b6353948bf167d7d98c34051bf;
  0x118370941781c3a3f8aced7b4617f723fc0153e797a597a3f439027e168f063bf;
  0x109fa4065e98e663f69505632bfc5943ff849c22daa45773f45cfc31571fc633f;
  0x11f925dd37f50943f2e18d4621cf7773f9a0f8ed5a1d6763f013b9f053844803f;
  0x1037ff886429e68bf4c34b4b6353948bf167d7d98c34051bf18370941781c3a3f;
  0x19a0f8ed5a1d6763f013b9f053844803f037ff886429e68bfd38681dc6a729fbf;
  0x18a1e1cb13b0a9cbf4ee4035b5e49983f8aced7b4617f723fc1153e797a597a3f;
  0x1439027e168f063bfe6b5560e7e0b4dbff735e1bea1e496bf1c2f91e964b0633f;
  0x14975bb0576156ebf0ce1f48cc38f69bf71ecb1067789583f8ee348f6353346bf;
  0x16c9ea11096ed8e3f4667b275fb129bbf0048f5513bf0603f306c170a266355bf;
  0x154c9dc9a2a6d9cbfcecb24a7dfc87ebfdf937013c8109bbf01d81159c8bc773f;
  0x1e4b5560e7e0b4dbff735e1bea1e496bf1d2f91e964b0633fcecb24a7dfc87ebf;
  0x1df937013c8109bbf00d81159c8bc773ffd4b176542d1a03fa28906df1a2d963f;
  0x15a3bf9b2ad90a5bf4c75bb0576156ebf10e1f48cc38f69bf75ecb1067789583f;
  0x1208a5cc8e51f0d3f561c332afab87f3f06b2a467ba7840bf3e28f8491cad043f;
  0x114c431fd4385763f4870a1ff196337bfa82d777553534ebf954c5a11bdb0a3bf;
  0x1567ac79cf18d873f7b227d7818eb43bf7138addb3ed8773f7090580f2cab813f;
  0x10af241d7bc18dcbeb7627cca579a4ebf48da4efbcac70f3f248a5cc8e51f0d3f;
  0x1561c332afab87f3f08b2a467ba7840bf14f241d7bc18dcbeba627cca579a4ebf;
  0x154da4efbcac70f3f9fd3c69ad5c343bf37107e9a75847a3fa1e84bbbf794813f;
  0x14228f8491cad043f16c431fd4385763f5470a1ff196337bf3cde2c4ecc054bbf;
  0x1a10e1dd9fd9c7b3f468f0190f651533f5dc8987a5e9b5d3f5b44388e05418ebf;
  0x1893c2717f62a65bfd6e94486d3da613fe9a786cf457b92bfa148d518a4a4733f;
  0x1e0897491c5650cbf300cd04836c32b3fad2e5517e95c803ffe6304c8087e43bf;
  0x1bc845c5b18eb733fdf38f2d05edf4b3f3ede2c4ecc054bbfa10e1dd9fd9c7b3f;
  0x1468f0190f651533fff6304c8087e43bfbe845c5b18eb733fdc38f2d05edf4b3f;
  0x1323493aa7205503fd6a1eff42ed880bf246616256bae7a3f5fc8987a5e9b5d3f;
  0x15e44388e05418ebf863c2717f62a65bf208a5cc8e51f0d3f561c332afab87f3f;
  0x106b2a467ba7840bf3e28f8491cad043f14c431fd4385763f4870a1ff196337bf;
  0x1a82d777553534ebf954c5a11bdb0a3bf567ac79cf18d873f7b227d7818eb43bf;
  0x17138addb3ed8773f7090580f2cab813f0af241d7bc18dcbeb7627cca579a4ebf;
  0x148da4efbcac70f3f248a5cc8e51f0d3f561c332afab87f3f08b2a467ba7840bf;
  0x114f241d7bc18dcbeba627cca579a4ebf54da4efbcac70f3f9fd3c69ad5c343bf;
  0x137107e9a75847a3fa1e84bbbf794813f4228f8491cad043f16c431fd4385763f;
  0x15470a1ff196337bfacac55db42e54cbfc0672d9c932f38bf88112f214e6283bf;
  0x1e0db0f65c1865abf97818a1199417e3f2aa9b554f4a1743fd464aff4a42d5dbf;
  0x15ab113c25e57af3f736b524e1b439abfa9baeb0e9b5e58bff21efeba985f923f;
  0x12ccd608078d1a83fe209badaab604c3fe015dfb3f3207ebf16c51a4fd3de91bf;
  0x1a9ac55db42e54cbfc0672d9c932f38bf87112f214e6283bfe409badaab604c3f;
  0x1e215dfb3f3207ebf17c51a4fd3de91bf4cf61259b3a422bf50aad72af09f2ebf;
  0x1e5a1c879260a98bfe2db0f65c1865abf9b818a1199417e3f2aa9b554f4a1743f;
  0x1cb08f399a981593fd8116afb43a18cbfd18a4d2dac4d60bf66665fcf431c2bbf;
  0x183ae042a266e5e3fd1826ac41f54313fe2dee653f5ce3b3fa0a98036bfb471bf;
  0x11f45fb6d45677e3f28849d85a1e3653f0266df592e1899bfb8e48f634ca2723f;
  0x138bc63f4f4803abf77a3bb8ed2bf6d3f9646e070daf0403fca08f399a981593f;
  0x1d8116afb43a18cbfcf8a4d2dac4d60bf39bc63f4f4803abf78a3bb8ed2bf6d3f;
  0x19646e070daf0403f12652a00d8d934bf5f384b2cbb34633feca9653e4625813f;
  0x167665fcf431c2bbf84ae042a266e5e3fd2826ac41f54313f8485b5c8ecad183f;
  0x183192657da0e22bf738dfc000613863f7c3c307b5f9ff5be4869173383a4ff3e;
  0x11c38dd4a135763bf300477dea4de1a3fb4cefd12713339bf81ada8e381925f3f;
  0x135300a27db1f41bf6c1b8b6cef5f413fc51c3fabe3d3b1bf72f0aa842358223f;
  0x1268876b15ed82abfad898e9f6d68903f8485b5c8ecad183f83192657da0e22bf;
  0x1738dfc000613863f70f0aa842358223f1e8876b15ed82abfae898e9f6d68903f;
  0x1badad2df4878163f83b6da565c9737bf0058f1a33acbd63e7b3c307b5f9ff5be;
  0x14169173383a4ff3e1d38dd4a135763bfcb08f399a981593fd8116afb43a18cbf;
  0x1d18a4d2dac4d60bf66665fcf431c2bbf83ae042a266e5e3fd1826ac41f54313f;
  0x1e2dee653f5ce3b3fa0a98036bfb471bf1f45fb6d45677e3f28849d85a1e3653f;
  0x10266df592e1899bfb8e48f634ca2723f38bc63f4f4803abf77a3bb8ed2bf6d3f;
  0x19646e070daf0403fca08f399a981593fd8116afb43a18cbfcf8a4d2dac4d60bf;
  0x139bc63f4f4803abf78a3bb8ed2bf6d3f9646e070daf0403f12652a00d8d934bf;
  0x15f384b2cbb34633feca9653e4625813f67665fcf431c2bbf84ae042a266e5e3f;
  0x1d2826ac41f54313f3e8fffb640808ebf28d1ccc6f88d58bfc820409b1c59813f;
  0x18a5922c0f75d7e3ff7ff096343a77a3fa74dfcca0cdb6ebf18b7dabdde929e3f;
  0x1f6170c4b2e9d963f03c8d0ccd9cb9dbf1423051e816060bf727d2358c32f803f;
  0x1ec8923bdce3d88bf65eb8f48be5b63bfc6830652e9077cbfbe0ceff864204b3f;
  0x13e8fffb640808ebf28d1ccc6f88d58bfc820409b1c59813f66eb8f48be5b63bf;
  0x1c6830652e9077cbfbe0ceff864204b3fa078cce9059565bf56799c15f5b597bf;
  0x19d015ae43d768cbf8b5922c0f75d7e3ff7ff096343a77a3fa74dfcca0cdb6ebf;
  0x1252ec1830b508b3ffdab431403b38f3f287cd91f638b7abf575ea7a115857dbf;
  0x1cc95c576662181bf4dfd6ed288b06c3f94522a931a029fbf8eed6b7dfe2f92bf;
  0x1bbf651710832963f5084619e810c46bf49a7cdad4c00913f202fb71651d97d3f;
  0x1ec621ce7dcab663f1464511500506a3faaa9e7b49f0856bf252ec1830b508b3f;
  0x1fdab431403b38f3f287cd91f638b7abfed621ce7dcab663f1564511500506a3f;
  0x1aaa9e7b49f0856bf42c5d1e94030683f4a1213b05d4f953f62afe84befa1763f;
  0x1585ea7a115857dbfcc95c576662181bf4dfd6ed288b06c3f0a1ce946f22b523f;
  0x14452a83028cb7abf8cb7e360a21364bff2a63a89fde2213f5f7eb3e3955f4abf;
  0x188bf30a807c333bf57cb762ccb1f703ff241c87a697c97bff9b4665875014fbf;
  0x142f8e62587fe2b3f72c55f570f0550bf3e429d5304d27d3f63b128c1dab2033f;
  0x134ae1b178a0b2dbf261c4ffa85c315bf0b1ce946f22b523f4652a83028cb7abf;
  0x18cb7e360a21364bf63b128c1dab2033f34ae1b178a0b2dbf271c4ffa85c315bf;
  0x1423fc06a83d916bf63a658142e154a3ffa6a52d16b45803ff2a63a89fde2213f;
  0x1607eb3e3955f4abf88bf30a807c333bfe403cf8b119b543fb828f8ca50fb7cbf;
  0x14063d4b108159bbf4adeb8f844413f3f423a6446d7fa65bf6caf02f70a8a84bf;
  0x18eba61d2ab32503ff4ce689d108e75bf1255f93a07398abfd061e69cb76a5d3f;
  0x1ff126047d71284bf49ec21542c7c9ebfc0d0eca9a36c453f30c016fd12226ebf;
  0x1a256f72879288cbfe303cf8b119b543fb928f8ca50fb7cbf4263d4b108159bbf;
  0x1bfd0eca9a36c453f2ec016fd12226ebfa156f72879288cbfe05501532feb343f;
  0x194eafcec4c8358bfd084c8ad1cde543f4adeb8f844413f3f413a6446d7fa65bf;
  0x16caf02f70a8a84bf8485b5c8ecad183f83192657da0e22bf738dfc000613863f;
  0x17c3c307b5f9ff5be4869173383a4ff3e1c38dd4a135763bf300477dea4de1a3f;
  0x1b4cefd12713339bf81ada8e381925f3f35300a27db1f41bf6c1b8b6cef5f413f;
  0x1c51c3fabe3d3b1bf72f0aa842358223f268876b15ed82abfad898e9f6d68903f;
  0x18485b5c8ecad183f83192657da0e22bf738dfc000613863f70f0aa842358223f;
  0x11e8876b15ed82abfae898e9f6d68903fbadad2df4878163f83b6da565c9737bf;
  0x10058f1a33acbd63e7b3c307b5f9ff5be4169173383a4ff3e1d38dd4a135763bf;
  0x1252ec1830b508b3ffdab431403b38f3f287cd91f638b7abf575ea7a115857dbf;
  0x1cc95c576662181bf4dfd6ed288b06c3f94522a931a029fbf8eed6b7dfe2f92bf;
  0x1bbf651710832963f5084619e810c46bf49a7cdad4c00913f202fb71651d97d3f;
  0x1ec621ce7dcab663f1464511500506a3faaa9e7b49f0856bf252ec1830b508b3f;
  0x1fdab431403b38f3f287cd91f638b7abfed621ce7dcab663f1564511500506a3f;
  0x1aaa9e7b49f0856bf42c5d1e94030683f4a1213b05d4f953f62afe84befa1763f;
  0x1585ea7a115857dbfcc95c576662181bf4dfd6ed288b06c3f97ced4eb232d90bf;
  0x1c8b0b668593c5cbf82f268c5d230993f772b4dc588177b3f8e5000654336883f;
  0x11cc45fd2c5d1823f110d08661edc993f3c2dedf15cbaa73fc442998e422d84bf;
  0x12ccdda3db4a84abf38e92f403e067abfc250a26939b8b53fe8e8e674537b6dbf;
  0x108fe39d145414d3fac94423971bc4bbf97ced4eb232d90bfb8b0b668593c5cbf;
  0x184f268c5d230993fe9e8e674537b6dbff4fd39d145414d3fdc94423971bc4bbf;
  0x1da84daff9cca6abffa9d8ae0743994bf7051547400358ebf782b4dc588177b3f;
  0x18e5000654336883f1cc45fd2c5d1823f]%N.
Definition file_78 : list N := [0x1934e554d5059010076007b276465736372273a205b282773616d706c65272c20;
  0x1273c693427292c202827737472756374757265272c20273c693427292c202827;
  0x161746f6d272c20273c693427295d2c2027666f727472616e5f6f72646572273a;
  0x12046616c73652c20277368617065273a202837382c292c207d2020202020200a;
  0x10000000000000000040000000000000000000000050000000000000000000000;
  0x10600000000000000000000000900000001000000000000000400000001000000;
  0x10000000005000000010000000000000006000000010000000000000007000000;
  0x10100000000000000090000000200000000000000040000000200000000000000;
  0x10500000002000000000000000600000002000000000000000700000002000000;
  0x10000000009000000030000000000000005000000030000000000000006000000;
  0x10300000000000000070000000300000000000000080000000300000000000000;
  0x10900000004000000000000000700000004000000000000000800000004000000;
  0x10000000009000000050000000000000004000000050000000000000005000000;
  0x10500000000000000060000000500000000000000070000000500000000000000;
  0x10800000005000000000000000900000006000000010000000400000006000000;
  0x10100000005000000060000000100000006000000070000000100000004000000;
  0x10700000001000000050000000700000001000000060000000700000001000000;
  0x10700000007000000010000000900000008000000010000000400000008000000;
  0x10100000005000000080000000100000006000000080000000100000007000000;
  0x10900000001000000050000000900000001000000060000000900000001000000;
  0x1070000000900000001000000080000000900000001000000090000000a000000;
  0x101000000070000000a00000001000000080000000a0000000100000009000000;
  0x10b00000001000000050000000b00000001000000070000000b00000001000000;
  0x1080000000b00000001000000090000000c00000002000000040000000c000000;
  0x102000000050000000c00000002000000060000000c0000000200000009000000;
  0x10d00000002000000040000000d00000002000000050000000d00000002000000;
  0x1060000000d00000002000000070000000d00000002000000090000000e000000;
  0x102000000040000000e00000002000000050000000e0000000200000006000000;
  0x10e00000002000000070000000f00000002000000050000000f00000002000000;
  0x1060000000f00000002000000070000000f00000002000000080000000f000000;
  0x10200000009000000100000000200000007000000100000000200000008000000;
  0x11000000002000000090000001100000002000000040000001100000002000000;
  0x10500000011000000020000000700000011000000020000000800000011000000;
  0x10200000009000000]%N.
Definition file_79 : list N := [0x1934e554d5059010076007b276465736372273a205b28276772616469656e745f;
  0x1646972656374696f6e272c20273c693427295d2c2027666f727472616e5f6f72;
  0x1646572273a2046616c73652c20277368617065273a2028332c292c207d202020;
  0x1202020202020202020202020202020202020202020202020202020202020200a;
  0x1000000000100000002000000]%N.
Definition file_80 : list N := [0x1934e554d5059010076007b276465736372273a205b282773706865726963616c;
  0x15f6861726d6f6e6963735f6d272c20273c693427295d2c2027666f727472616e;
  0x15f6f72646572273a2046616c73652c20277368617065273a2028332c292c207d;
  0x1202020202020202020202020202020202020202020202020202020202020200a;
  0x1ffffffff0000000001000000]%N.
Definition file_81 : list N := [0x1934e554d5059010076007b276465736372273a20273c6638272c2027666f7274;
  0x172616e5f6f72646572273a2046616c73652c20277368617065273a202831382c;
  0x120332c2033292c207d2020202020202020202020202020202020202020202020;
  0x1202020202020202020202020202020202020202020202020202020202020200a;
  0x13d3a1943466a733f744afa8949c4993ffce885ab2d8f853f5d125d771b3716bf;
  0x11e4bbf4d55c23fbf22710e59867110bf8a69f5c4a2dc79bff1592c179c5aa0bf;
  0x12116ecf63a3194bfcfe7f39dc418a2bfaa26b49f84cb96bf229393262feb7fbf;
  0x142474ea0139faabf26dedec977bca0bf5624373c383873bf25aa89250ab697bf;
  0x1794162f93bf6a2bfbc1a0a33c99895bfb5ad416d0ac4a2bf178b6014ab7094bf;
  0x1d210fe87eaef7dbfc1fc85949081ab3fbc78d4d3d0ee9e3f50bf3388c2c8733f;
  0x19ecf5bba75bb9abf5e618cd01465a2bf23f1d6fdf48695bff776f5e4e068b0bf;
  0x112e20e58f4a2b1bf9acd251b908990bf7f6d9ef8a3cd65bfca63be5348b067bf;
  0x1140573ca92ff47bfce33c2ceb71f9f3f4c5aa1b1a266a13f5e3923dc3731853f;
  0x141817ee1767c623f1919a09f64d3923f7be76b856757803fe2734545629a2dbf;
  0x198f54099076b223fe355254fb03e1f3f50a7251b16ceb13f54a1d5e43639aa3f;
  0x1f4eb2fd91d037d3f033c9a65dc10ae3ffa1c3824aa2bb13fb70caba24e0f9b3f;
  0x12defa332ce9e6b3fec06fb70a4c4653f8436e9307305413fa938477f4af5a1bf;
  0x1407ef5fece105cbf331de4034ac1923f9e62bb53f1f2633f1da2b50ffbed963f;
  0x12dad2697121d883f08c71dedd2dd51bff313bdbfe12b84bf7090764f033177bf;
  0x13ab034d3ec9c6abf34c0e065f7179cbf3b5082765a8b95bf9799e9bd8c539abf;
  0x1c8a1d2b5233291bf3a0c6b7dcbe886bf6ed0f8029e1ab0bffb24371167f1a2bf;
  0x15e4f23a79a5d7fbfb7b661ec2cb995bf69fc79618136a2bfe814aece24a99abf;
  0x14c4effd67e80a5bf90138d51dd9e9dbfe233fe25efef7dbf929a9c64f091a83f;
  0x1f720953e23e79e3f87e34b030e6a6a3fe81039374c2396bfa2bee3994c93a2bf;
  0x168003143ad0692bf3a39dfc48665a9bfa0ba3ecff4d7b2bf79e5f5de169590bf;
  0x1d0a92bcfb93d913fa755c211345e963f2a18f3629908723fcb0b54cef1219a3f;
  0x117ea991b286fa33f81d9b584b72a873f61ca13e485c370bfcdfea63093e58f3f;
  0x13900c81b66307b3fa866ec931f3b733f7f4c92e41adf563f0d9ccd01c38834bf;
  0x15c14fb144b53b33fe4f48023a77caa3fccaa0dedc6ec783f883b65f49b6aae3f;
  0x150b43da34c24af3f6e6ebb0d2a3e9c3f27729496c3c38dbfa19fb7ce9e6887bf;
  0x188046909e41869bfa25435e2e57a94bf6c0edf1390fc543fc475a27bcca9943f;
  0x1b9d4081a49a4783f2358200ec4fc9d3f7bd92aa8194f8a3f52bd9332638c52bf;
  0x1363aef298b1d76bff16cbbf51d6868bf7ed19d3c377879bf9bf19d5bc7899dbf;
  0x12c4ff16f6aef94bfdc574019f4af91bf8e90c2f4067f89bf8600135d2dc789bf;
  0x1f041b0ee6e07b0bf31d3719afb69a6bfc8994eed62ec86bf25f6a8b2644f8abf;
  0x195f84d3af7aea1bf0039963520b29ebf1838b86ff7cea1bf7bea5c0d204596bf;
  0x14618ce910fb676bf4620dfd3fc87a83f2a7900e8c7ca9d3f6c6057e11356693f;
  0x177ca92c2c00c9bbf7aaa93e17a5da3bf35d2e870bc0193bfed5598e10d7da8bf;
  0x19416275a0a3cb0bf89f20864878d96bf88963ed3d42d943f18f44c255cc0973f;
  0x1a009f137fae17c3fdaa32296806b963f3d2c72be6003a13f496dd3d9d9eb8a3f;
  0x1f35555593340873f778ba259bbac983f18e123eb362e853f46efdd6066e1873f;
  0x1da1bbbd70ddd7b3f78341963bc6436bf9c4afd583265ad3fe321a0fa1e9da93f;
  0x139b9a7c9493d813f2fedc29d5047ad3face70b021e25b03f12529d24d8f99c3f;
  0x1d49b7433cd5581bf1cc12a9789b87fbf34dd1f031a2e64bf5ae983ac1630a4bf;
  0x1680fb8135e4e70bf389af9c0a51e913f]%N.
Definition file_82 : list N := [0x1934e554d5059010076007b276465736372273a205b2827737472756374757265;
  0x1272c20273c693427292c20282763656e746572272c20273c693427295d2c2027;
  0x1666f727472616e5f6f72646572273a2046616c73652c20277368617065273a20;
  0x12831382c292c207d20202020202020202020202020202020202020202020200a;
  0x10000000004000000000000000500000000000000060000000000000007000000;
  0x10000000008000000000000000900000001000000040000000100000005000000;
  0x10100000006000000010000000700000001000000080000000100000009000000;
  0x10200000004000000020000000500000002000000060000000200000007000000;
  0x102000000080000000200000009000000]%N.
Definition file_83 : list N := [0x1934e554d5059010076007b276465736372273a205b282773706865726963616c;
  0x15f6861726d6f6e6963735f6d272c20273c693427295d2c2027666f727472616e;
  0x15f6f72646572273a2046616c73652c20277368617065273a2028332c292c207d;
  0x1202020202020202020202020202020202020202020202020202020202020200a;
  0x1ffffffff0000000001000000]%N.
Definition file_84 : list N := [0x1934e554d5059010076007b276465736372273a205b28276e272c20273c693427;
  0x1295d2c2027666f727472616e5f6f72646572273a2046616c73652c2027736861;
  0x17065273a2028332c292c207d2020202020202020202020202020202020202020;
  0x1202020202020202020202020202020202020202020202020202020202020200a;
  0x1000000000100000002000000]%N.
Definition file_85 : list N := [0x1934e554d5059010076007b276465736372273a20273c6638272c2027666f7274;
  0x172616e5f6f72646572273a2046616c73652c20277368617065273a202836382c;
  0x120332c20332c2033292c207d2020202020202020202020202020202020202020;
  0x1202020202020202020202020202020202020202020202020202020202020200a;
  0x1d816cf9b782f933f53b045223667983f35f3adf6e08583bfa85203448efc36bf;
  0x139e75b7ff03c3dbf78bf92361564273f1285b60241ca94bf7878cd3ecd3d82bf;
  0x12ac5c562a7cd913f23142573b89785bf1c3a1e0942ba6c3f833f8e74e76f893f;
  0x1a13de5603bc4313fd8aed13c2f99363f6c7d85c53f1422bfd816cf9b782f933f;
  0x152b045223667983f36f3adf6e08583bfa13de5603bc4313fd8aed13c2f99363f;
  0x16c7d85c53f1422bf631e64e6bc1b703ff90fcb481f72963f2b2f5de8b1b4743f;
  0x1a95203448efc36bf38e75b7ff03c3dbf78bf92361564273f903bcb8d69dd0b3f;
  0x1d8321df52ad13e3fe557fc29caeb9a3f9df5444a6275a23eee31f8cf046ad43e;
  0x17649df7153d5313fda12a841b0d9f4be2beecac7f3bf5abf5ae9e6809590b0bf;
  0x1a6730458d6de193fac6bf9409b1f43bf5af318fd7dcb78bf203fe32e00408cbe;
  0x11086d483333ebfbe684d5de9094b1bbf903bcb8d69dd0b3fd8321df52ad13e3f;
  0x1e557fc29caeb9a3f223fe32e00408cbe1086d483333ebfbe684d5de9094b1bbf;
  0x1f1a405495d331f3fc083ddd506753abff9ade89ef866703faef5444a6275a23e;
  0x1ee31f8cf046ad43e7749df7153d5313f76fc9550673d93bf1e251ace7ae298bf;
  0x14a5ea5aed92891bf2d30de9253f3363f71061c6c48eb3c3f32a9280d5e873dbf;
  0x117efc66e77cf943f3dd6c6b7cb95853f1ff06a50573aa83f3c0b75c6fa63853f;
  0x131dfdf385bf267bfac8b03ec50147abf3961df60b3c031bf52da4d09f17936bf;
  0x1202434bac4b92f3f76fc9550673d93bf1d251ace7ae298bf4a5ea5aed92891bf;
  0x13961df60b3c031bf52da4d09f17936bf202434bac4b92f3ff734885b8a9870bf;
  0x1ea99732d4b0896bf92eea243d58d82bf2e30de9253f3363f70061c6c48eb3c3f;
  0x133a9280d5e873dbf1c1de165ecff9cbfe59a6ceafeb9843fda1b98b1851b603f;
  0x16ea89422396ea5bfccfac16d2ea28e3fb8984ddf80ce673f4c4d29f3860da53f;
  0x14a1765578c4c9d3fbcde64d592c16fbf80521d6a31e3893f09eb9dc131dca33f;
  0x100c85795f61d5fbfe828f77c8f61b1bf85d455c557d8983fce9e94d2e64e733f;
  0x11f1de165ecff9cbfe69a6ceafeb9843fdb1b98b1851b603fe828f77c8f61b1bf;
  0x185d455c557d8983fce9e94d2e64e733fd4a46493d962a5bf466bdccfbed0ad3f;
  0x16c668b80c3c65e3f6fa89422396ea5bfcefac16d2ea28e3fb9984ddf80ce673f;
  0x17ed62b43e51273bf9275d18e89288cbf5bedbf7258096e3f03f7961bb66c7abf;
  0x10c8aeeb8508193bfe0f3a65a5ece743ff7b16c808dbb8bbf4198d4cccfed9abf;
  0x1ca211c322db8923fb93680b2e19b47bfa0776f19f8aa873f7cfd8b8ec3c3803f;
  0x1864a3f6a672b61bfa08d5a93dc5879bf006d4ee4aa095b3f7fd62b43e51273bf;
  0x19475d18e89288cbf5bedbf7258096e3f864a3f6a672b61bfa08d5a93dc5879bf;
  0x1006d4ee4aa095b3f12f6ed8ea14b61bf534398e71e847e3f8acffc07e401833f;
  0x104f7961bb66c7abf0e8aeeb8508193bfe0f3a65a5ece743fa80c7b3a288f25bf;
  0x19ae2e7efc4e824bf0532462ae142a1bf59d3cbf7b57115bfb85861ef35cc14bf;
  0x174e1e9b34d2b91bf3bcd71b227f920bf9e9fb555e02d45bf7cc1149a560fa8bf;
  0x1f8e120901529e33e7bd94d3e01c640bf6c0cd0f1ed0593bf60e330429f770cbf;
  0x19376a674eb9b0bbf44ccef4dcaca86bfa80c7b3a288f25bf8ae2e7efc4e824bf;
  0x10532462ae142a1bf6ae330429f770cbf9076a674eb9b0bbf44ccef4dcaca86bf;
  0x1721554a5a9ef173f1c8c83a3f0523cbf2c4caf3d1c6c5cbf5ad3cbf7b57115bf;
  0x1965861ef35cc14bf74e1e9b34d2b91bf6a849003e2f7a03fdce891e0b6086f3f;
  0x1e362019026c19c3f386d03c188c6a83ffab7f3df1614713fcae2ac02ccfb813f;
  0x1025eb7d6541b9cbfc0202d7ed8545bbf83fe5c2e59afa03f4c5759943d6e88bf;
  0x18b9100c3d783a9bf5c14bf27d72b893f586931ac79eeb13fe2ddc4aa527492bf;
  0x17a5e37104384733f6c849003e2f7a03fe0e891e0b6086f3fe362019026c19c3f;
  0x1586931ac79eeb13fe2ddc4aa527492bf7a5e37104384733f2ada80d79b6ba63f;
  0x14c36c4654eb4b0bfd25258f0384d83bf3a6d03c188c6a83ffeb7f3df1614713f;
  0x1cae2ac02ccfb813f24ecee3a3a56a0bf906829b30604893f979f988e45575f3f;
  0x1c04c6dc68207a83f0276cd4fbe6592bf32ccbdc4970c67bf3126c780814ea53f;
  0x1a616b761409f9d3f4627521d4ec570bff28da7854a42913fcf392506fda9a33f;
  0x14268c787a06165bf70199d7c878cb13fc661e9d02cdf9abf358121d147d570bf;
  0x124ecee3a3a56a0bf8f6829b30604893f999f988e45575f3f70199d7c878cb13f;
  0x1c661e9d02cdf9abf368121d147d570bf8cb714160822a3bfeaf01156b34aae3f;
  0x1c47aaa649afe443fc04c6dc68207a83f0276cd4fbe6592bf33ccbdc4970c67bf;
  0x13e4a24f4a04370bfd4512e76ded48abf30e821fdd1206b3fbfe452c68e3e783f;
  0x1a9e6979793ff933f28f66c712f3874bf4752d0d9ca2f89bf29d787132ec79bbf;
  0x11c8c5c5b1756923f53cb4138a2b345bffa3ef9623a12873f5cb866b664cc803f;
  0x11ef1050e78f05d3ff6cc535228b2783ff30c724910f858bf3e4a24f4a04370bf;
  0x1d4512e76ded48abf30e821fdd1206b3f20f1050e78f05d3ff6cc535228b2783f;
  0x1f40c724910f858bf2b0bd2e8a3b261bfc52a8b4771e5793ff8e3a9136f5b833f;
  0x1c0e452c68e3e783faae6979793ff933f28f66c712f3874bf25b2fe14a3432fbf;
  0x12a3cb9ab6b90283f8bd27a499a14a1bf5f54e37c69521f3ffc95537d079c18bf;
  0x1c45fa1b7ac1c913f42f2e6b3136730bfeadb0cd2dab21ebf0cdd461f6676a8bf;
  0x1fc72bf3bf4a403bfa394b17b01a232bf90a09ca53f7292bffffc01e10d53143f;
  0x1c48d9cff07f00fbfb3dbec372335863f25b2fe14a3432fbf2a3cb9ab6b90283f;
  0x18ad27a499a14a1bf03fd01e10d53143fc68d9cff07f00fbfb4dbec372335863f;
  0x1f6c6dd892092143f9c93214d4d9a38bf4aff61d5ea775dbf5b54e37c69521f3f;
  0x1fc95537d079c18bfc35fa1b7ac1c913f1e7488fcf17da23f3045604561e9463f;
  0x116de67faa5cf9c3f021bf6d3fd1eabbf10d1d104941358bf68d15cc51b5a82bf;
  0x17487d64581c39dbf102ad335f7955bbfe7db42350464a13fde9fc7f9da8a90bf;
  0x16426ec9b4749a9bfd462c4b68270893fb3714d205e09b2bfd03c54c09ac2943f;
  0x1f4b25b8cfa5675bf1e7488fcf17da23f4045604561e9463f14de67faa5cf9c3f;
  0x1b4714d205e09b2bfd03c54c09ac2943ff5b25b8cfa5675bf5ce95c44e932a43f;
  0x18e89347216abb0bfbb4b485f5bfc80bf021bf6d3fd1eabbf20d1d104941358bf;
  0x165d15cc51b5a82bfb4da3bc4031f773f42e082d5fa45963f24e813a485e274bf;
  0x1973ac06aecbc3c3fa930120b2aaf5b3f1a76e5dc5af539bf6a670052413287bf;
  0x1e9b1756b79289fbf5dca5fdc1157923f3377b606670164bfd8b12379fc2d6f3f;
  0x107c5f67cc03e843fa5da29ea90e82bbf0a38cbe897e24abfb06a21738935293f;
  0x1b4da3bc4031f773f42e082d5fa45963f24e813a485e274bfa4da29ea90e82bbf;
  0x10838cbe897e24abfac6a21738935293fdc9493f99280323f07cc76f6784b8d3f;
  0x1e103e3b012697e3f953ac06aecbc3c3fa830120b2aaf5b3f1876e5dc5af539bf;
  0x1b28888d7f403b13f3d12ab410df799bf3a0f1c20c17470bf0419e7eed5c5663f;
  0x130858d8d126051bf6adc990d2e0626bfa6d051bcb1879f3f5d75a2b513e9a03f;
  0x1444b832a11186cbf7854d0c77cbab2bfefd408616b9bb23f4a3df4ccd660673f;
  0x1bfed81c9aa5b77bfae4de83964d2613f99eb08ed1597363fb38888d7f403b13f;
  0x13c12ab410df799bf3a0f1c20c17470bfc0ed81c9aa5b77bfaf4de83964d2613f;
  0x19aeb08ed1597363f8134cca3b21db03f58e49fd2c141953f132c5fc4830276bf;
  0x10419e7eed5c5663f30858d8d126051bf6adc990d2e0626bf4c1e7c61fa5364bf;
  0x106e43a3bc5417bbfd87348090a735e3f63ea494dd82c12bf328d1327c85e28bf;
  0x1609ea9317f390b3f2ce1a8f9c677473f9a552efba93a903ff8332fedd9dd7c3f;
  0x16e0269e85cb093bff2335159ca44a3bf1652bf920d83963f37637122b28942bf;
  0x14884080248db58bf7ef24b0794c43b3f4c1e7c61fa5364bf06e43a3bc5417bbf;
  0x1d87348090a735e3f37637122b28942bf4a84080248db58bf80f24b0794c43b3f;
  0x1684613622175503fc73e51485705913f96091c946ffb7b3f63ea494dd82c12bf;
  0x1348d1327c85e28bf629ea9317f390b3f6b65c04045d3b1bff8d5ed750703853f;
  0x168dadd4184ba7d3f04d1d4b90ccc69bf4ce788e2f90c3dbf4298befea0c8403f;
  0x1fbe31e4b4faa94bf6b8efdfa57e492bff22d5b32860b96bfce48203a9f46b83f;
  0x10ab15230ece4a3bf219e6c5544c7a1bffb682195258c7a3f8827ec145c3e253f;
  0x1b8c9f256377b4fbf6c65c04045d3b1bff8d5ed750703853f68dadd4184ba7d3f;
  0x1fc682195258c7a3f8027ec145c3e253fb8c9f256377b4fbf30154ebc0772b0bf;
  0x1924416cb6a76aabfb2f04f40ff3082bf04d1d4b90ccc69bf48e788e2f90c3dbf;
  0x14098befea0c8403fc426e5413b5880bffe30abd4908d99bf9eb74227dd837a3f;
  0x180311dd7c99219bf6825368393fd33bfd8b0fe6542be143f41b3822025ae88bf;
  0x1fcc52169e1b398bfd716726d1dd4913f2b87e0d6bec371bf0080d48284ffd1be;
  0x19539827fd2d7863f6822cfbe520b10bf049efc19541529bffc17bd7d19070a3f;
  0x1c426e5413b5880bffd30abd4908d99bf9eb74227dd837a3f6922cfbe520b10bf;
  0x1059efc19541529bffc17bd7d19070a3fe820cec466ed453f66ff54fa4e06903f;
  0x168c6a133b60d7d3f80311dd7c99219bf6825368393fd33bfd8b0fe6542be143f;
  0x196cbc32dd3196ebfe938cea024d4563f9d3f38b92c862d3fc810c19acffe423f;
  0x1832aa312f8cf2cbf90ceb3a4a2a102bf992961015b0dbbbfc472e1b807afb53f;
  0x18815e036cc54743faef2796cda09b03f6296d066da5f953f13d89d270bef75bf;
  0x1f821ea709386ea3e441f8a4a031ed4be533449727604aabe96cbc32dd3196ebf;
  0x1e938cea024d4563f9c3f38b92c862d3ff921ea709386ea3e431f8a4a031ed4be;
  0x1543449727604aabefc00b006fa0eb03f28bf98f21458953ff3b42ea011f475bf;
  0x1c810c19acffe423f802aa312f8cf2cbf90ceb3a4a2a102bfaa19560db0de873f;
  0x16f4d9e8a4e20983f9b790c8d0e707bbf30d5babfec983fbf55dd43c6c732413f;
  0x120934927e2da06bf018071a51f23be3f8a0232bd1e04afbf391c2a7b50e996bf;
  0x177d417fe3cdbadbf1a69886eba5e95bf179b66d799c077bf52bc63a10075093f;
  0x1feee503444b6293f2bf3f3a3079f09bfaa19560db0de873f6e4d9e8a4e20983f;
  0x19b790c8d0e707bbf54bc63a10075093fffee503444b6293f2bf3f3a3079f09bf;
  0x13e9d39d4d43ab0bf47df76f631afa2bfd445cc4d92665cbf30d5babfec983fbf;
  0x154dd43c6c732413f20934927e2da06bfb2489c775c87533ffa8ed550fcc694bf;
  0x10c3159bea68441bff9c055d33e2df73ee256496d93a838bf207fde2b63cae4be;
  0x13049d89502513b3f17302689c87a87bf6c3117bff4b9803fddd1ae5d00414f3f;
  0x15f797709a21995bfeb5002ddae3b803facf0c95264fafc3ed0713d1cacd43ebf;
  0x1603f6463a1fee9beb2489c775c87533ffa8ed550fcc694bf103159bea68441bf;
  0x1adf0c95264fafc3ed2713d1cacd43ebf583f6463a1fee9be12ea1cfa319041bf;
  0x1221ed94ad479733f66dda33b039a813ffac055d33e2df73ee356496d93a838bf;
  0x1207fde2b63cae4be7adcf0ce2ce75dbf986ae20c204071bfbe07a75eebb4543f;
  0x1fc39565460c610bfc0b58838b05a23bf1c74ddf6623b073f5cd2adeba639553f;
  0x11fef0c5d38ca913f94855e9b651b7b3f6e880c23f69596bf9a28bb0cb8b1a2bf;
  0x129ea452ccd55973f4e8b4f7cd0fd4abf5296c91548245fbf0c25160cc9b0423f;
  0x17bdcf0ce2ce75dbf986ae20c204071bfc007a75eebb4543f4d8b4f7cd0fd4abf;
  0x15296c91548245fbf0a25160cc9b0423f0f91a9783813573f64af77b2840e923f;
  0x155c79e316ac97a3ffc39565460c610bfc1b58838b05a23bf1a74ddf6623b073f;
  0x183cd59ca9fbab23fee07e62901699bbf50562a6be4db73bfbb64bbbf9c53713f;
  0x12c95c5d3955b59bfc636da76385f32bf725a744dfa41903f3aafedb52a75a33f;
  0x10c9e24ee3f8662bfea7a6187cf1bafbf43ded73c2ce8b03fa26925f69114673f;
  0x19418353f56a27cbf5339c27307f4643f0d1cebc6965c3e3f83cd59ca9fbab23f;
  0x1ee07e62901699bbf50562a6be4db73bf9418353f56a27cbf5239c27307f4643f;
  0x10c1cebc6965c3e3fca88d5077f96ae3fa2506ba6167b963f72261e45512b75bf;
  0x1bb64bbbf9c53713f2895c5d3955b59bfc636da76385f32bf347bfc882091b2bf;
  0x1c718fabe0240aa3f82ba4b6b3edf703f94613d7db02771bfce80145b88f8603f;
  0x13c7c5d311f1e303fbc9886c6d80292bfc49a2ac2947ba6bfb34c3d9117a689bf;
  0x1ed81b84be3f4b43ff05ce3a03d4782bfe9dfc56c1b2ba1bf0d406cea15e57f3f;
  0x100ff5b55de7428bf0a11fff48cbb50bf347bfc882091b2bfc718fabe0240aa3f;
  0x182ba4b6b3edf703f0d406cea15e57f3ff0fe5b55de7428bf0a11fff48cbb50bf;
  0x1aa61b203d808afbfc7a3cc3508b4a6bfd72de4b10f6984bf94613d7db02771bf;
  0x1cc80145b88f8603f3c7c5d311f1e303fb285c9d579cf883f0f5a849fd5f9983f;
  0x1757ee18a46ff7fbfdde46070daee75bf8c94e9994c1486bf72061b7947496c3f;
  0x1e853ad85af448bbfd996cb0fba7288bf52e011bc0e68903fc652aa3f78d27fbf;
  0x1e047a806b95049bf13fe03e84b7d893ff1365330eb7a713fc3670328c398813f;
  0x102e02b45258b66bfb385c9d579cf883f105a849fd5f9983f747ee18a46ff7fbf;
  0x1f3365330eb7a713fc4670328c398813f04e02b45258b66bf00f07bfccc069dbe;
  0x1021d0e294c738e3fe979a406c7757e3fdfe46070daee75bf8d94e9994c1486bf;
  0x176061b7947496c3fd487fdc760361b3fb677063df928283f65ab67bdedf2983f;
  0x152c93efb01090ebf0a119d208caa1abfef46769373898bbf845a254daa0026bf;
  0x1cc193ea542f54dbf30c6794e1b39b0bf4ab2b01e7c34153f11713161def73ebf;
  0x1f61c7a8cad6c74bfd450113e23c6f53ef3fbb7e1e554033f8f4f3bf77df6733f;
  0x1c487fdc760361b3fb777063df928283f65ab67bdedf2983fdc50113e23c6f53e;
  0x1eafbb7e1e554033f8f4f3bf77df6733f1e3d7b4593101c3fa6ad38df4fec3bbf;
  0x150737558a5ed523f4bc93efb01090ebf1a119d208caa1abfee46769373898bbf;
  0x1c2805997e60589bffe66fe91272a99bfc84baf1a1cf390bf70625774ec2a763f;
  0x1aece2ab2a149863f52852fb52177843f52e9e12eb29c8b3f76781f3a0e528a3f;
  0x1379cea3e2f3ea83ffd8f2f4fa67d7f3f3480a01b5466543f30df8d43ea8d7ebf;
  0x142489153b19071bfbf1fe50d18ac81bf1cbf4aa9d66161bfc3805997e60589bf;
  0x1ff66fe91272a99bfc84baf1a1cf390bf44489153b19071bfc01fe50d18ac81bf;
  0x11abf4aa9d66161bf2ec17e788cf31bbf955714aae9938dbf5eeb602e989881bf;
  0x172625774ec2a763fafce2ab2a149863f50852fb52177843fbac78ab6643091bf;
  0x114a74df8bd757a3f4740fbbc6847503fd71c70628f38a5bf32f829b34d55903f;
  0x1c455892ded18643f0f109187b32eaa3fac79af7841ea993f321fa6a8ed2573bf;
  0x15ab6936baa60a53fb055d89efb9c9d3f0c58733379df70bf4bf68e375df7abbf;
  0x10712b3766186953f3a06d87f4d7c6a3fb9c78ab6643091bf19a74df8bd757a3f;
  0x14540fbbc6847503f4af68e375df7abbf0412b3766186953f3a06d87f4d7c6a3f;
  0x14866ef27922cb2bff09ff480c582b23f406bef6c6eec643fd81c70628f38a5bf;
  0x131f829b34d55903fc555892ded18643f024e53b19be472bff8bf4c3710ce87bf;
  0x1069b35dd95656b3fe1abbb3db03382bf639b9d9325ef96bfa650408b08657a3f;
  0x158b34a2a8bc28cbf9e3c136ee1ca95bf7e2a62fb4a2a923fb8819a14d4042cbf;
  0x1d04353d83ac98b3fc03cabe53c977f3ffa0995fc3c0e66bfdc63ddc92fca7bbf;
  0x132728e1ea2fb5f3f004e53b19be472bff8bf4c3710ce87bf069b35dd95656b3f;
  0x1fb0995fc3c0e66bfde63ddc92fca7bbf33728e1ea2fb5f3ff7c4fe27b36670bf;
  0x1e4a47f2ab372703f3affd4127f6c853fe0abbb3db03382bf649b9d9325ef96bf;
  0x1a450408b08657a3f27bd33233e3d513fed09b945307478bfd9fe4260f5769abf;
  0x1cd206b26f860453fdc26e16269536ebf1b7d1b2ae56890bf64ddd1cbc2745d3f;
  0x1d51a7d75454584bf3abed437f861a2bf29f207e194c8473fb7e1d28297406fbf;
  0x1e89d86ef6d9a83bf8d9ccf2f41343a3f6722ec1bd59562bf7232df9f101d84bf;
  0x128bd33233e3d513fed09b945307478bfdafe4260f5769abf8d9ccf2f41343a3f;
  0x16822ec1bd59562bf7332df9f101d84bf41a0222b048e353fadec10a02d9b59bf;
  0x1004c63b8453c273fcf206b26f860453fdc26e16269536ebf1c7d1b2ae56890bf;
  0x1685facc0b7d5943f6471025e49cd863f7497cc18cc05963f4c5b4591f76fa93f;
  0x119909f198ac8843fe4f8688615327d3f24f25cd3b6e9a3bf724189c00a0d783f;
  0x1c2d970de2063973fa13b03ebc7a3a5bfb1cd530dc3cca3bf1c57d52c187d783f;
  0x1b2a7f884d823ad3f86697cc1358288bf3ac52ef811fd723f665facc0b7d5943f;
  0x16271025e49cd863f7597cc18cc05963fb1a7f884d823ad3f7f697cc1358288bf;
  0x13cc52ef811fd723ff72f44566f1db33f8b561cfd8323b3bf3a67f2c48b048bbf;
  0x14d5b4591f76fa93f1d909f198ac8843feaf8688615327d3fc2c388b52b4f9fbf;
  0x15a28f54a235e863f91bbf84d8567613fe8f2b51b4006a23f905d2ebdf4c089bf;
  0x19f0b246efe0964bfca063c127683a63f6451fd18b6409c3f33d13205a0af70bf;
  0x1e0d5646edad476bf94604ec11330a73fc4875efc4fad44bf2c730098a2e6b23f;
  0x1bc5c77fe8f019bbfb5a5cf5e750375bfc2c388b52b4f9fbf5a28f54a235e863f;
  0x191bbf84d8567613f2d730098a2e6b23fbe5c77fe8f019bbfb6a5cf5e750375bf;
  0x1d9a85ae5c0179bbf5ec1afdbd801ab3f50b00a3691df4a3fe8f2b51b4006a23f;
  0x1905d2ebdf4c089bfa00b246efe0964bf37378263e7557cbf83b2441136ff92bf;
  0x1aec212f6cf38753f369cf4a01b42793ffd842c3e0def903fb4551fdfcaea72bf;
  0x1d3b488c30c1a8cbf8c9d158ff96a97bf607771ba104a923f7929e957513c62bf;
  0x106fbce7e9e4c803fd8b533f63af2823f7fa35e75a8b4673fee5ca46f2ec97f3f;
  0x1c26b4c501fc161bf35378263e7557cbf82b2441136ff92bfacc212f6cf38753f;
  0x180a35e75a8b4673fee5ca46f2ec97f3fc26b4c501fc161bfdc291c9bbd8b59bf;
  0x16cc1bbf92cf6833f901bb67263ec813f369cf4a01b42793ffd842c3e0def903f;
  0x1b2551fdfcaea72bfb717cc99bd6644bfeacef49f35e95e3f4d78d4506f21a1bf;
  0x154fec8101f9b313f4699a046f1ac4abf255b780f16918d3f7d57aae145b648bf;
  0x10a7c41b79640623f4fb47b962841a6bf48bd28d0399636bf5c45b76b692c503f;
  0x10c40e50371f995bfcaa2337bb67c293f0ef48b6df14e43bf8d09f602ad66853f;
  0x1b717cc99bd6644bfeecef49f35e95e3f4e78d4506f21a1bfcaa2337bb67c293f;
  0x10cf48b6df14e43bf8c09f602ad66853fec26e94f682cf73e6c95d079764720bf;
  0x1d6a3848627ae5cbf54fec8101f9b313f4299a046f1ac4abf255b780f16918d3f;
  0x127d99bbded83a33f9e452b474486773f7c2865fab9c79a3f6c18f6cdb951a5bf;
  0x1568b02ab5ac969bfc65abf0862327ebf6e60a69333349ebf658d3f833d777cbf;
  0x18ba5d27328649e3f38fbad5b33ae803f81d95fac9ec4abbfbcb25c117c4b8a3f;
  0x11902e93606b1b3bf20a5faedbba9933f086fecfda9d269bf27d99bbded83a33f;
  0x198452b474486773f7f2865fab9c79a3f1a02e93606b1b3bf22a5faedbba9933f;
  0x1026fecfda9d269bf2d71f8a4b1aa9c3f24e1a4a31cefafbf1a324695970480bf;
  0x16c18f6cdb951a5bf588b02ab5ac969bfc85abf0862327ebf5e7313e55da2723f;
  0x1060447d80713943f867d8be937d271bf605be84a146461bfcfa9c62c25bc82bf;
  0x11880b5a5d1a1603f7043ced92d0385bfd57349812cd79fbfbf87696e62ec913f;
  0x197e2f15931425ebfd84cd7b09d21753ff22ca9e6535e833fdbb74f120d6c4e3f;
  0x11e35abc3f662703f490c99ee3a184dbf5e7313e55da2723f070447d80713943f;
  0x1877d8be937d271bfdcb74f120d6c4e3f1e35abc3f662703f490c99ee3a184dbf;
  0x1dad35900db0933bf84614322e94c883fe5aa0216f751803f605be84a146461bf;
  0x1d0a9c62c25bc82bf1880b5a5d1a1603f6ad7932d47edac3ff2cb06b97ff98fbf;
  0x11c2c212e3cdc76bf3fd979030f0794bf8469a5ff3e23763fe60dcfd79ca75f3f;
  0x11ccb3a72a314903f5d0a722e59caa13fd2a3e3e8391551bf3033dd6152acadbf;
  0x1ca0663e74f36ac3f7c83d67b8d88793f33b4f60d367ba23f253cb72ab16d84bf;
  0x19cb15aebf3356dbf6cd7932d47edac3ff4cb06b97ff98fbf1d2c212e3cdc76bf;
  0x133b4f60d367ba23f223cb72ab16d84bf9ab15aebf3356dbfb0eb5993ea50a13f;
  0x13e5ef4e54d749e3fbbae1715cd3367bf40d979030f0794bf8269a5ff3e23763f;
  0x1e60dcfd79ca75f3f0ea1cc5194ab63bfb898af73fee578bf63924046a5975c3f;
  0x12ab5e2757e7e3f3f688db6eeb7ee533f1f6b2e35c3e336bfc2a67acebc344d3f;
  0x1bf579acbbebd903fdc11215c9c4f7c3fba2d2fbb6de893bfcfd1e1bde4fba1bf;
  0x188dde096c335963fec3f8e46b5e5703fc207f8e37163853f14cc6376c98f68bf;
  0x10ea1cc5194ab63bfb798af73fee578bf62924046a5975c3feb3f8e46b5e5703f;
  0x1c207f8e37163853f14cc6376c98f68bf1cdcd0ba70a2363f111a23bae6a68e3f;
  0x1bed8f7e2a7ef7d3f29b5e2757e7e3f3f678db6eeb7ee533f1a6b2e35c3e336bf;
  0x1c57b19a5d906aebf08414209bd19613f84420e6345c4803fd659ff9297b5953f;
  0x1808d74bcbab2643fa739f7aa27996dbf68fa1dafc9f279bfa4f834a7447b94bf;
  0x1f991e3e6f5ee97bf912c22654d49b43f2c3d38bf3dbd99bf708a95748823a3bf;
  0x110bb11eb9c11a5bf58cc2c36784e72bf6160b20ee6857e3fc77b19a5d906aebf;
  0x108414209bd19613f86420e6345c4803f10bb11eb9c11a5bf5ecc2c36784e72bf;
  0x16060b20ee6857e3fc1d9cebe1b58a1bf04ce13ea1af7acbf95ab38c2d77c89bf;
  0x1d759ff9297b5953f888d74bcbab2643fa839f7aa27996dbf8bd005b213ab34bf;
  0x127529ed314f8523ffff0e737046f74bf8d0698d10791f4becb49ee222de0123f;
  0x1c202d507445534bf19cd46a7950e4fbf9162df3104816c3f1d942175afb68ebf;
  0x12cb7ff4c2ca419bf71fa28f11989373f75f28e34766c59bffd7c044b8f30dbbe;
  0x19e30ed954ff4f83ef835406c8ce11abf8cd005b213ab34bf28529ed314f8523f;
  0x101f1e737046f74bffc7c044b8f30dbbe9e30ed954ff4f83ef835406c8ce11abf;
  0x1948fc6eb3d3cd93e867e3ab2b31ff7be8b4889771ac6173f8e0698d10791f4be;
  0x1cc49ee222de0123fc302d507445534bfb059c72ac0a084bf363ddef8d5b596bf;
  0x114eadd6b8ae07b3f5094454b8d8a1cbfd79d62a3236c2fbf46cbd1492149133f;
  0x16d0de2cc3d5592bfb1b0c8afab7999bf35bdf8b4aa0e943fe44ff1c6e5ac6dbf;
  0x1c4041529abe57a3f585a9912195a843f68b7a9301d810dbfb4e855b4cb3d20bf;
  0x169aa6134bcef033fb159c72ac0a084bf373ddef8d5b596bf16eadd6b8ae07b3f;
  0x166b7a9301d810dbfb4e855b4cb3d20bf66aa6134bcef033fc7d0ff8075ef593f;
  0x138e268311476923f34f0f2abf14b7a3f4f94454b8d8a1cbfd69d62a3236c2fbf;
  0x145cbd1492149133fe072bb01ba778b3f87996df9be9876bfaceaef197f9c45bf;
  0x1662e2cf855f586bfc617e71512e3723fb076e88f3b10423ff9c68cf124abbabf;
  0x19c1e832360f0b63fbfa501062afd663fb1fde6a31795b13fe7410c3fd8f2923f;
  0x1a8f518435e5277bfc388b61d05554c3fc08ba3c8cb4e37bfd20497a99b4a06bf;
  0x1e072bb01ba778b3f87996df9be9876bfaceaef197f9c45bfc488b61d05554c3f;
  0x1c28ba3c8cb4e37bfd40497a99b4a06bf3c62fa4486a9b13f73eb28263ad1923f;
  0x188a50cac716277bf672e2cf855f586bfc817e71512e3723fb076e88f3b10423f;
  0x1b0aa8fe584c668bf76beff69842c9b3ffeeedf42d9f752bf9285ab96b338873f;
  0x1febb57ad313372bf705d706a7b9d34bfeed71390917ebf3f84ed1f59fd75b1bf;
  0x17a9fa0ece04b7ebf44339c6a47a1b0bf02271671670a9abfd404eca96c0d66bf;
  0x152e4152c92464abf10ad6fa96cde3d3f2de3da26fc0e1c3facaa8fe584c668bf;
  0x176beff69842c9b3ffeeedf42d9f752bf54e4152c92464abf12ad6fa96cde3d3f;
  0x12fe3da26fc0e1c3f9910f60ba911b2bf869f5235c3a0a2bf707e234ec3444abf;
  0x19385ab96b338873f00bc57ad313372bf6e5d706a7b9d34bfb2c304e0a466613f;
  0x17b5016facf428dbffd713a88d1cd6fbf2c1d401fef3230bff36a621a603d5b3f;
  0x1eb689695699b3d3fc428da8dc2545a3fbe92c3be8dd085bfe1936844e2f2733f;
  0x1cd5cb5f2b2cc623f37372f63eb498fbf774f1fb89e996d3f43c635d8440833bf;
  0x1b7a9112b8a00603f7076630e8f64413fb2c304e0a466613f7a5016facf428dbf;
  0x1fd713a88d1cd6fbf42c635d8440833bfb6a9112b8a00603f7176630e8f64413f;
  0x19fc74353b0e325bf6cd359046bff543faf1ee1de7e9d803f2c1d401fef3230bf;
  0x1f26a621a603d5b3fec689695699b3d3f40f38a92973d6dbfda0edef76e1186bf;
  0x107bda2333a4a673f64a64212a5c1413f86621a0244cd5a3f90c342c927493cbf;
  0x10030c2d7c04cce3e26338baa51f18b3f107ed6b100397f3f1347f9971fdd90bf;
  0x144d8c9726e79a2bf0da1f112913d953fa488b248fb67653fcbadd8aec827803f;
  0x1b53b6767c50c61bf40f38a92973d6dbfda0edef76e1186bf07bda2333a4a673f;
  0x1a688b248fb67653fccadd8aec827803fb63b6767c50c61bf08f2bd4ebbbf363f;
  0x1ea7c7b0401118e3f18ac71ea1b1a7e3f65a64212a5c1413f88621a0244cd5a3f;
  0x194c342c927493cbf40708c2c97cfa73fd687dcac233490bf7d4e72949bd96cbf;
  0x138eeb553077187bf4eb67bc193e76f3f7c8bca9808674c3fe6d3ae338854a43f;
  0x1dd9aa9a6e8829d3fd317b67faa0e6ebf9ea6520a0793b4bf96ee80fa4fd6b13f;
  0x1ccf67d405937763f4b5818b5b222a13f986bcff56c5287bf381c3b700fc364bf;
  0x140708c2c97cfa73fd787dcac233490bf7d4e72949bd96cbf4c5818b5b222a13f;
  0x1966bcff56c5287bf381c3b700fc364bf229da03f9241a83f3f8da8f9f6d69a3f;
  0x135413193336871bf38eeb553077187bf4eb67bc193e76f3f7d8bca9808674c3f;
  0x1470d64012812a7bfc05beb9221efa43fba01857499ae723fbbc48b7b84d6863f;
  0x1860edde772767dbf2a5ef47e29104dbf3504217ba727a5bf88b5464ea549a0bf;
  0x1040332db461282bf7d4dbb58e933b83f346ed8526dc192bfaf08153a9b7e9ebf;
  0x14815f3df2153a2bff89a92e10d54593f28bd048a58bb703f470d64012812a7bf;
  0x1c05beb9221efa43fba01857499ae723f4915f3df2153a2bfe09a92e10d54593f;
  0x129bd048a58bb703f3ed5ea052e59a8bf76f41516b797a5bf2054810a73f686bf;
  0x1bbc48b7b84d6863f860edde772767dbf2a5ef47e29104dbf17def310bdc9943f;
  0x145b86ac64a2a983f59652ad72a3884bfac6c6af2fce86ebf9572490c41f771bf;
  0x13032602189105e3fb4f141e0a05390bf6851e8bd62fc52bf83076c2a6d238e3f;
  0x1ef5e535a8f2890bf90eb8533afb64fbff4f2453c89f98d3f8b7ef88108c96e3f;
  0x19c7ffa57aee4713f92a19c7574f15dbf17def310bdc9943f44b86ac64a2a983f;
  0x15a652ad72a3884bf8b7ef88108c96e3f9c7ffa57aee4713f90a19c7574f15dbf;
  0x17cc51179b2a46e3fd6c65d25c13e963f18e7de3cba10753fac6c6af2fce86ebf;
  0x19672490c41f771bf2e32602189105e3f3d6117e24e8035bf4928412eca3e633f;
  0x1605769fa2d779d3f74edbe1c27cf173ff021766ea44f45bf84d33ccc705080bf;
  0x1ac4b7b1b49094b3f13d7ec828e4d76bf977a913fb761adbfa4ade9bb7979313f;
  0x15467037311b257bf112f37c4c93781bfec5e0663b30006bf9a523c15b6b1333f;
  0x12874836d21276e3f396117e24e8035bf4828412eca3e633f615769fa2d779d3f;
  0x1f05e0663b30006bf9a523c15b6b1333f2874836d21276e3fd5f9626b199a203f;
  0x1d2e7c9e40f183dbfada2bd525eb36f3f74edbe1c27cf173ff021766ea44f45bf;
  0x185d33ccc705080bf8a976100878fc83e4d1bbbbe7770e6be1ee744dc9993053f;
  0x1617eabef4ea6ddbe67ad76f1b916fb3e46da3d88180c1abfbf3d65ca0a4b1cbf;
  0x132409e5d74d9393f8d71ecef08db58bfea62a100574656be845435c0b25c743e;
  0x1f82026d44dc693bebfa9f05e67b9893e6690dec79d80a7be550d4d2e4999c63e;
  0x18a976100878fc83e4d1bbbbe7770e6be1fe744dc9993053fbfa9f05e67b9893e;
  0x16690dec79d80a7be550d4d2e4999c63ef6350499861e9bbebc21f1b112c7b83e;
  0x1c441df4251d6d7be627eabef4ea6ddbe68ad76f1b916fb3e47da3d88180c1abf;
  0x19f83a351807494bfeb053bfd558f9abf2847c25be26593bfff4afce056396e3f;
  0x126c026e01e86743fe59142b2ef84793f28f96044432f8f3f6a078dec0f6f793f;
  0x142dc753cb49fa63f855092af55c58f3f23aefdcc8bc6633f2d37e6d62f8379bf;
  0x1d2e0099a6c716ebfd10560b40d1f73bf456d010a1b685ebf9f83a351807494bf;
  0x1ea053bfd558f9abf2847c25be26593bfd2e0099a6c716ebfd10560b40d1f73bf;
  0x1476d010a1b685ebff72c931b7bad6fbffc661502c4ca95bf4f80f6e8397282bf;
  0x1ff4afce056396e3f27c026e01e86743fe79142b2ef84793ffcf85796477a7fbf;
  0x152daea167659663fcf825ddeefb3413fa0467155994b9cbf51e286960717843f;
  0x1b0a5137587d35f3f34cce9ea591cab3fb751c632cff4983f3dbde9943b3973bf;
  0x1825fb2e668f7a73f165ed87953309b3fda6644a0897471bfae4e44f454e3a4bf;
  0x1e4f2093052a98d3fa8be4360a07e673ff6f85796477a7fbf58daea167659663f;
  0x1cc825ddeefb3413faf4e44f454e3a4bfe2f2093052a98d3fa9be4360a07e673f;
  0x15f93629a26aab6bfb068d002ed18b33f848f1a6c3084753fa1467155994b9cbf;
  0x152e286960717843fb1a5137587d35f3ff21e0868fa0661bf683bcadbebf078bf;
  0x19492b2d979b45a3f04ced6e61ca181bf29a1feaab1d299bfb0321c3d37a67b3f;
  0x1da34cf999f6c88bf98b3ac46b6be95bf870f40b71960913f5c9ede059bd73e3f;
  0x112dd42d2c6e28e3f9c65914305af7d3f36a466b7720457bf45ba15038edb70bf;
  0x1b3f8df72c20c523ff31e0868fa0661bf683bcadbebf078bf9492b2d979b45a3f;
  0x134a466b7720457bf44ba15038edb70bfb2f8df72c20c523fa4361f91a18374bf;
  0x1d0af90002bc84fbf148bca5e1ea4873f04ced6e61ca181bf29a1feaab1d299bf;
  0x1ae321c3d37a67b3f38b413fc52665c3f176fcdd45dce84bff62835ef04b06fbf;
  0x131f3c1b3227f533f14d586ae2f917cbf6438ca49f7c065bf0a37618d5155653f;
  0x1b5fba60b99ac8ebf7757d99d09c55f3f10fa57337ce3503f9ece4537e39377bf;
  0x1a5c740e9d452763fed3b5d46d61f493f5df64581136872bf2237269875085cbf;
  0x138b413fc52665c3f186fcdd45dce84bff52835ef04b06fbfee3b5d46d61f493f;
  0x15ef64581136872bf2237269875085cbf208c26911edb3c3fdc146861ddcd62bf;
  0x107a8b7d18cb87b3f32f3c1b3227f533f16d586ae2f917cbf6438ca49f7c065bf;
  0x1b38dab051872803f36d6f73c76b08b3ff0fd881598d15b3f3747d0ce1af2a13f;
  0x146e55ccb79eb963feaff7b759dba78bf6f124c1d8756a6bf77bf73336740883f;
  0x15f6bc6d7361c8dbf90dc58fe33bca8bf7c2c940a5f5ea2bf34e34646a84681bf;
  0x1e00ee630f936a53f2735b8db020f78bf719fa0cdc68062bfb18dab051872803f;
  0x136d6f73c76b08b3ff0fd881598d15b3fe10ee630f936a53f2235b8db020f78bf;
  0x1719fa0cdc68062bf3d60e39485d5b73fa906c4c1ed42b2bf6dd3d97e3e2198bf;
  0x13847d0ce1af2a13f46e55ccb79eb963fe8ff7b759dba78bf90f34f851ecaa1bf;
  0x11474b313c1ba883fca6a2a9b4acb643fec5216f38799a83fd67f9c44261991bf;
  0x1a071a88e28c16cbf65c57c2fc5b09f3f5a5bc5463660a03f648d8c7b202d69bf;
  0x152a88042c8f2843ff4af6e30fe0fa43f0ca2636c898d59bf0dd32ec99280b03f;
  0x1c8f903b2a5f096bf0efefc2d164a73bf90f34f851ecaa1bf1474b313c1ba883f;
  0x1ca6a2a9b4acb643f0dd32ec99280b03fcaf903b2a5f096bf0ffefc2d164a73bf;
  0x1a117875ce188a0bfeba104e5f8a0ab3fa08592d35258593fed5216f38799a83f;
  0x1d77f9c44261991bfa071a88e28c16cbfe6d7fb8ae9b06bbfc71ae9a098c68bbf;
  0x1e6e99e821089693fd94d72a8ff98703f52c770e7fea5903f885a4901759c6ebf;
  0x1dee3d0160ec086bf0f4dbdc42f13a0bf95c34cd7c85b923f77532f15d72649bf;
  0x18a4e967a19ac843f92ca8332ff2f813f885d2684b6c6533f6f6247f432d6733f;
  0x188a91611993c52bfe5d7fb8ae9b06bbfc51ae9a098c68bbfe6e99e821089693f;
  0x18a5d2684b6c6533f716247f432d6733f8aa91611993c52bff1dc5c0238c953bf;
  0x16212cc8d600e813f168ecdb3c204823fda4d72a8ff98703f52c770e7fea5903f;
  0x18d5a4901759c6ebf4aef0aa2ecc049bf1ba764d31d9f653fb94d320028c29fbf;
  0x1ab1d05798b0c383f9eee3596c03054bf695e7e5d07a88d3f0695223d63d050bf;
  0x1ea656a7e24096c3f8adeb451d67fa5bff8f6e9882fec3dbf80ce5b455cba583f;
  0x158646494c6fa93bf723444992fdd303f6cceb5a705514cbf3d47483dcccb843f;
  0x14cef0aa2ecc049bf1ba764d31d9f653fb84d320028c29fbf733444992fdd303f;
  0x16dceb5a705514cbf3e47483dcccb843ff41a08b65ad8fabeb05968fe3c3d103f;
  0x1be31e834d58364bfad1d05798b0c383f9eee3596c03054bf685e7e5d07a88d3f;
  0x1cbdc87d030eca33f9e181c3d7fdf52bf2323799c9cf7993fe2a616ffc0dcaabf;
  0x1de76f16836635b3fbed603f33fa17dbf262a42f0b74393bf4da5754fc66c70bf;
  0x12c8b8edb87c99b3f6363e654f97082bf0a223f71d700aabf6072d1233ff7893f;
  0x1b7b0d8d28ae0b0bf9fcf2f22a1dd923f0ae64d085cbe71bfcbdc87d030eca33f;
  0x1ae181c3d7fdf52bf2223799c9cf7993fb7b0d8d28ae0b0bfa1cf2f22a1dd923f;
  0x10ae64d085cbe71bf8cbff027862aa13fb1daf6a6afecafbf5ad205c1d70e80bf;
  0x1e3a616ffc0dcaabfee76f16836635b3fbad603f33fa17dbf2ca423f6c3fe663f;
  0x1eec8cfb66903953f1b20074522bb6cbf203d65415d3558bfd003f2213e1f86bf;
  0x16e21d300353f5e3ff81f181400ea77bfacfb53469dda9dbf0bb08886599d8e3f;
  0x1fc7c30e6e8755cbf1057fe26bb244b3ffc689598bc1e843f7ab494a00d97483f;
  0x1c63ca1268378763f8b44e85943b94ebf2ba423f6c3fe663feec8cfb66903953f;
  0x11d20074522bb6cbf7ab494a00d97483fc63ca1268378763f8844e85943b94ebf;
  0x181842eb94c2647bfb85e1f517f20813fc3df92489c7b813f203d65415d3558bf;
  0x1d203f2213e1f86bf7021d300353f5e3fcc0910831198a93f68300e053e9c8dbf;
  0x1607fe9944e4973bfde295ec98b0395bfb400d838b94f783f563849c881ab5f3f;
  0x1264dfac3a791993fdeeac21a34a0a03f319532c5c2df60bfe60c2b75b8feaebf;
  0x15a98e6ccc549ad3feb95ca748f8d783f1e183946d6cfa63f901661b73e648abf;
  0x149997cfe9a3071bfcd0910831198a93f6c300e053e9c8dbf607fe9944e4973bf;
  0x11e183946d6cfa63f921661b73e648abf48997cfe9a3071bf587ad50b866a9e3f;
  0x11c0a257782d99f3f0f2898fad08664bfdf295ec98b0395bfb800d838b94f783f;
  0x1583849c881ab5f3fa403676b62273dbf75f580c28ad469bf2783495338ee413f;
  0x1976f3eb4cddb1c3f601f45d79391493f2abf2e3fbcbf21bf7084a7c8a91f35bf;
  0x1b6db9b0f1be3863f4abb2514c67f803f64acbdffde687ebfe1d49548270da4bf;
  0x1774f14dcec31913f384aa1c449e85c3f5bb0e78ba39c893f20c7a7ed69c761bf;
  0x1a403676b62273dbf76f580c28ad469bf2783495338ee413f374aa1c449e85c3f;
  0x159b0e78ba39c893f20c7a7ed69c761bfdc42fadbaaf547bf0616ae37b1f3803f;
  0x1f1b488c17487813f966f3eb4cddb1c3f601f45d79391493f26bf2e3fbcbf21bf;
  0x108769bfdaecdaabf5890c4dfcad567bf08df03ad18697f3f403fc0cf056a963f;
  0x10063239090bc703ff0409ba05fd96dbf16a7d117a94293bfd68fffedb0ae8dbf;
  0x104e3b074977295bf2d232acec1d7b13faa79d9e1625293bfb8d4c88257b2a0bf;
  0x14275e0ca7419a8bf5c70aecf4ce974bf6a858d6078eb7d3f08769bfdaecdaabf;
  0x14890c4dfcad567bf0adf03ad18697f3f4275e0ca7419a8bf5470aecf4ce974bf;
  0x169858d6078eb7d3f1d342c4fa6f19cbf3ee2c55dcd71a8bfb08a75cb5ce18dbf;
  0x1413fc0cf056a963f0063239090bc703ff2409ba05fd96dbfd3fd9d40aaed74bf;
  0x175ae1cab66999bbf52d55f07762d763f80c4d4635a4834bfc9a0748165bf5abf;
  0x18d6e1f1e487e353f15e9a62fc33279bf84bdfdb6f3d193bfd443392f851b8d3f;
  0x10e6294e71cee71bffb7efc5e747884bfda106638aa41893fb37cafbf6e1031bf;
  0x126b713bbda8056bf8ed43c902e15323fd3fd9d40aaed74bf74ae1cab66999bbf;
  0x151d55f07762d763fb27cafbf6e1031bf25b713bbda8056bf8ad43c902e15323f;
  0x164f29913cfc818bf976c5ea975cc893f147ec4714aec7f3f7ec4d4635a4834bf;
  0x1c6a0748165bf5abf8a6e1f1e487e353fb15cc57c261d9dbf20dad2ac9621823f;
  0x1e9c35f7ec115643f20bf216ac29e9dbf69222d184e72823f3c199e8e2b6f643f;
  0x16c460114e171b7bf49b356ed30beb13f6f8624a729ee7f3f8d0d63a4ae42a73f;
  0x1805e7b68cf489b3fd7c4de1af37670bf75fffdcd189c77bf5b5c9c0026685d3f;
  0x16d2997b7ae49403fb05cc57c261d9dbf22dad2ac9621823fe9c35f7ec115643f;
  0x177fffdcd189c77bf5a5c9c0026685d3f6e2997b7ae49403fcc19e65aa128a73f;
  0x18f35cad408599b3fb9be451efa6470bf20bf216ac29e9dbf68222d184e72823f;
  0x13e199e8e2b6f643f136e7686482ca13f6541b3549b88923fa3db47632b1c80bf;
  0x13212b1d3e3ef9d3fa01cfdcfc2347ebf0e076292f41e67bffdb4fb460d05b93f;
  0x1d0872eff6793a9bf86c365014d8996bf4b817007eb04a5bf021ffd38950c91bf;
  0x16eaef6aa300681bf40f7f8b91fad783fd49422162d9d3bbfb493b5ff455449bf;
  0x1126e7686482ca13f6341b3549b88923fa3db47632b1c80bf42f7f8b91fad783f;
  0x1d49422162d9d3bbfb393b5ff455449bfd34c5cf33c1ca7bfedb5bcd4a11fa4bf;
  0x1b67efda6a00e6fbf3212b1d3e3ef9d3f9e1cfdcfc2347ebf0f076292f41e67bf;
  0x148a61a65ffed4d3f18bf9add7b0295bf00d30a93767b0fbf2daa3f3840bb10bf;
  0x165343de56a7d573fc0e72db57199d13e88046b6fb2ae1c3f9708364c522184bf;
  0x16a837ee4e486813f92896ab6a229463f77f7b34e151b97bf56c92c635a73813f;
  0x18060122817b616bf2c5c7bfd9ee25f3f8039222ab2e3d73e48a61a65ffed4d3f;
  0x118bf9add7b0295bf00d30a93767b0fbf8060122817b616bf2e5c7bfd9ee25f3f;
  0x18039222ab2e3d73ec992bb4afc4342bf5eb41d541d18753fe540f2e4e09d813f;
  0x12daa3f3840bb10bf66343de56a7d573fc0e72db57199d13e6d6f3de56a2609bf;
  0x1b19b6764a6ee22bf887ea1475401043f964e59b6589fd93eb4eaf984ae49f33e;
  0x15eef69258561d4bed54d4e5c118d483f910dc021b846903fdb280b2c45ca7c3f;
  0x17b5d4db3cac491bf4a49bc87bbc4a3bf082d72510ef1953f073abf425ce2623f;
  0x19efb2097536e7c3f8ac44997d10a5ebf6d6f3de56a2609bfb19b6764a6ee22bf;
  0x1887ea1475401043f073abf425ce2623f9efb2097536e7c3f8bc44997d10a5ebf;
  0x1a7c8fb681bdf3d3f37dd882433be8e3f5df7ea3104bf7d3f964e59b6589fd93e;
  0x1b4eaf984ae49f33e5eef69258561d4be84dda4eedee6b33f787617e865a59ebf;
  0x1c08ca89c31d572bffcd33479e36587bf3413df0acd03723fdafce2742224463f;
  0x144ad1ff026c4863f290f84d5bdd8a43f70be38db41e962bff25101deb5e7a9bf;
  0x1edb494b95081b03fbcb26b2bfdf9553f24f481ddef3a913fc83d85fb3b887abf;
  0x19552f88dff4d50bf84dda4eedee6b33f787617e865a59ebfc08ca89c31d572bf;
  0x124f481ddef3a913fca3d85fb3b887abf9552f88dff4d50bf3faf2d049273af3f;
  0x102061aec25dc953ff572773ac7a475bffcd33479e36587bf3513df0acd03723f;
  0x1dafce2742224463f236b1220961fb4bf64823d89dfe6a93f695f3fe125ec723f;
  0x126888e0e2684873f385ab37271f677bfcb84024e921e46bf2a68c36a558688bf;
  0x1cc935653c5f3a7bf3ce8b503b7318bbf452b6756ba38b13f404d3241b4056bbf;
  0x170a6dfaa2d05a0bf05c9b14e858093bfc229f5b57ebd63bf73fa8bb97620673f;
  0x1236b1220961fb4bf64823d89dfe6a93f695f3fe125ec723f05c9b14e858093bf;
  0x1c029f5b57ebd63bf74fa8bb97620673f85b8d4494066afbfdbf0b269a340a5bf;
  0x11903ac60ffaa85bf26888e0e2684873f395ab37271f677bfcb84024e921e46bf]%N.
Definition file_86 : list N := [0x1934e554d5059010076007b276465736372273a205b282773616d706c65272c20;
  0x1273c693427292c202827737472756374757265272c20273c693427292c202827;
  0x161746f6d272c20273c693427295d2c2027666f727472616e5f6f72646572273a;
  0x12046616c73652c20277368617065273a202836382c292c207d2020202020200a;
  0x10000000000000000010000000000000000000000020000000000000000000000;
  0x10400000001000000000000000100000001000000000000000200000001000000;
  0x10000000003000000010000000000000005000000020000000000000001000000;
  0x10200000000000000020000000200000000000000030000000200000000000000;
  0x10600000003000000000000000100000003000000000000000200000003000000;
  0x10000000003000000030000000000000007000000040000000000000002000000;
  0x10400000000000000030000000400000000000000080000000500000000000000;
  0x10100000005000000000000000200000005000000000000000300000005000000;
  0x10000000009000000060000000100000001000000060000000100000002000000;
  0x10600000001000000040000000700000001000000010000000700000001000000;
  0x10200000007000000010000000300000007000000010000000500000008000000;
  0x10100000001000000080000000100000002000000080000000100000003000000;
  0x10800000001000000060000000900000001000000010000000900000001000000;
  0x1020000000900000001000000030000000900000001000000070000000a000000;
  0x101000000010000000a00000001000000020000000a0000000100000003000000;
  0x10a00000001000000080000000b00000001000000010000000b00000001000000;
  0x1020000000b00000001000000030000000b00000001000000090000000c000000;
  0x102000000010000000c00000002000000020000000c0000000200000003000000;
  0x10c00000002000000040000000d00000002000000010000000d00000002000000;
  0x1020000000d00000002000000030000000d00000002000000050000000e000000;
  0x102000000010000000e00000002000000020000000e0000000200000003000000;
  0x10e00000002000000060000000f00000002000000010000000f00000002000000;
  0x1020000000f00000002000000030000000f000000020000000700000010000000;
  0x10200000002000000100000000200000003000000100000000200000008000000;
  0x11100000002000000010000001100000002000000020000001100000002000000;
  0x103000000110000000200000009000000]%N.
Definition file_87 : list N := [0x1934e554d5059010076007b276465736372273a205b28276772616469656e745f;
  0x1646972656374696f6e272c20273c693427295d2c2027666f727472616e5f6f72;
  0x1646572273a2046616c73652c20277368617065273a2028332c292c207d202020;
  0x1202020202020202020202020202020202020202020202020202020202020200a;
  0x1000000000100000002000000]%N.
Definition file_88 : list N := [0x1934e554d5059010076007b276465736372273a205b282773706865726963616c;
  0x15f6861726d6f6e6963735f6d272c20273c693427295d2c2027666f727472616e;
  0x15f6f72646572273a2046616c73652c20277368617065273a2028332c292c207d;
  0x1202020202020202020202020202020202020202020202020202020202020200a;
  0x1ffffffff0000000001000000]%N.
Definition file_89 : list N := [0x1934e554d5059010076007b276465736372273a20273c6638272c2027666f7274;
  0x172616e5f6f72646572273a2046616c73652c20277368617065273a202831382c;
  0x120332c2033292c207d2020202020202020202020202020202020202020202020;
  0x1202020202020202020202020202020202020202020202020202020202020200a;
  0x14d33bafa173184bfd08b8a6c441259bfe961c1634a91483f60a2b8d2464f493f;
  0x127b0d95c126d1f3f4b83bf6b67cb0ebfeecf78fe865db4bf2e50fd58704989bf;
  0x1e7904f7d5ac7783f211c4eefffc166bf9f39257be121a1bfefbc8bc4cf0189bf;
  0x1a6c12a41fd6754bfea28e54a5cb98ebf5d196d2f4d6c76bfa790b0dcfa2d313f;
  0x1e9d67796b3dd693f55583b55a7e0523f6501f7db6a9f68bfa166b01aa239a1bf;
  0x14ddd5cfb595888bfb380835d4e04573fbec60106091a903f6b4bcd08e0c1763f;
  0x17660edac3a2b303f6b8f36254c9f663fd0e7f01f20f94f3fcaa2bd98aaf01bbf;
  0x134a04ec62aa1393ffde1ce13492260bfbccd1dcb4939c1be453cd5025099df3e;
  0x17578d59b42e403bfd170bf9fb04e1f3fb18aa489e7b73cbf173ee8ee0e14623f;
  0x10000000000000000000000000000000000000000000000000000000000000000;
  0x10000000000000000000000000000000000000000000000000000000000000000;
  0x10000000000000000563678d7f25b32bfe311bda336b1813f0bc4a04fae3a7a3f;
  0x1896ed4d400f4f9bedc568f77a502493fc26baa3e0c8a423fd16a79c1a69a49bf;
  0x19f07af568aac983f6e0ca07a384a923f253d5278647875bfba85da7eb29a68bf;
  0x1d87faa5d29233e3f3c6fe5e6722c9fbfdf28d4c2acdc91bf53a2dfd4fce0653f;
  0x1a173c1354bc0a7bf6aae788cd4379bbfbb0dbca462ab703f7870de5d1b7f67bf;
  0x1cc726ed5c418a0bf3bd49c55ad8886bfcab3b17876865dbf6f8dd859133a94bf;
  0x1f514e3d3cd507cbf9bda29549b0d393f4f63ebe6c429713f62a56edbd906583f;
  0x140b18616daac54bfa18b4dc40427a0bf52cda552efbf8dbfd063d19921ca3b3f;
  0x1a37a4cb4e2b5853f6527cea54bfe733fda7e6a45ae671f3fdee1059ff788683f;
  0x14f07d4bc2f98563f5a488bb020dc1cbfa0319e085d773a3f000bfac9edd660bf;
  0x1b9c40003cc11ee3e5912035659930bbfce7e99789e8b313fc04505439080203f;
  0x170360e4f5d443ebf0eb403060442633f00000000000000000000000000000000;
  0x10000000000000000000000000000000000000000000000000000000000000000;
  0x100000000000000000000000000000000000000000000000085e4375fa9d740bf;
  0x173aae9c32f3e753ff42d122b2ce27e3f1f2da72695122d3f7ec72b61915562bf;
  0x1bdeac58ba0a76abf6b7893068c2657bfd7214dddff328d3f26a3e8d2ab39953f;
  0x1c8a25240b6f955bf6f83c8f78df732bf329562ff22241c3f45fb018407249ebf;
  0x10d9a0461b5037abfb9a0f682784c633fecb619b974e5b1bf71c4e67483e48ebf;
  0x1603930eee3ea763f35b687e6f60368bfdc6c711d86eb9ebfc21455b2fc0385bf;
  0x1b15de2dec8cd61bf8003e68c29ec96bf8ff85b37e4287fbf161aa34e440d363f;
  0x11f3994904c646c3feca39594154c533f5b973c23155868bf3a922ffc11d5a1bf;
  0x1b8888caf50b989bfc4d7ecb3623d513f4b61066bb541893ff15bd3f28837723f;
  0x1a283de564fc719bf633ca68211e252bf522ca95b5b3d3bbfe8ab034f101c16bf;
  0x1346367d5574c343faf84d7a4c14058bfffa8e0fe1535ed3e2032bed77fd00abf;
  0x11cd15f1cf604303f764c0fa29783163fc95cb0c763ab34bf4245b53a52b2583f;
  0x10000000000000000000000000000000000000000000000000000000000000000;
  0x10000000000000000000000000000000000000000000000000000000000000000;
  0x10000000000000000aa5dbf4f20fa483f1d5a1efb82528a3f0e66ad10fcc4753f;
  0x1a3280aaef52533bff6761e40fa2d74bf583beca771b060bfbf1506a0dc4e5f3f;
  0x1ca61710e457fa03f521c2f5795498b3f]%N.
Definition file_90 : list N := [0x1934e554d5059010076007b276465736372273a205b2827737472756374757265;
  0x1272c20273c693427292c20282763656e746572272c20273c693427295d2c2027;
  0x1666f727472616e5f6f72646572273a2046616c73652c20277368617065273a20;
  0x12831382c292c207d20202020202020202020202020202020202020202020200a;
  0x10000000004000000000000000500000000000000060000000000000007000000;
  0x10000000008000000000000000900000001000000040000000100000005000000;
  0x10100000006000000010000000700000001000000080000000100000009000000;
  0x10200000004000000020000000500000002000000060000000200000007000000;
  0x102000000080000000200000009000000]%N.
Definition file_91 : list N := [0x1934e554d5059010076007b276465736372273a205b282773706865726963616c;
  0x15f6861726d6f6e6963735f6d272c20273c693427295d2c2027666f727472616e;
  0x15f6f72646572273a2046616c73652c20277368617065273a2028332c292c207d;
  0x1202020202020202020202020202020202020202020202020202020202020200a;
  0x1ffffffff0000000001000000]%N.
Definition file_92 : list N := [0x1934e554d5059010076007b276465736372273a205b28276e272c20273c693427;
  0x1295d2c2027666f727472616e5f6f72646572273a2046616c73652c2027736861;
  0x17065273a2028332c292c207d2020202020202020202020202020202020202020;
  0x1202020202020202020202020202020202020202020202020202020202020200a;
  0x1000000000100000002000000]%N.
Definition file_93 : list N := [0x1934e554d5059010076007b276465736372273a20273c6638272c2027666f7274;
  0x172616e5f6f72646572273a2046616c73652c20277368617065273a202833302c;
  0x120332c20332c2033292c207d2020202020202020202020202020202020202020;
  0x1202020202020202020202020202020202020202020202020202020202020200a;
  0x116bf7d01883e97bf0805db1f9540853f421c312faa6d473f672177f8c7225d3f;
  0x14861cd0e94a34abf57a1f87fdc5d0dbf24ca16d5cbe4b9bfe388d34786b1b83f;
  0x126152cb329a13ebfafcac1e93246b43f19c6e980acb38c3f0b7492f3602e79bf;
  0x1a045583336e32c3fded1eeea74691abf1f8fbed3c91dddbe16bf7d01883e97bf;
  0x10805db1f9540853f411c312faa6d473fa045583336e32c3fe1d1eeea74691abf;
  0x11c8fbed3c91dddbe2bf377c46ffdb43f7b80f71189158a3f591f9928b98a79bf;
  0x1682177f8c7225d3f4b61cd0e94a34abf56a1f87fdc5d0dbf16bf7d01883e973f;
  0x10805db1f954085bf421c312faa6d47bf672177f8c7225dbf4861cd0e94a34a3f;
  0x157a1f87fdc5d0d3f24ca16d5cbe4b93fe388d34786b1b8bf26152cb329a13e3f;
  0x1afcac1e93246b4bf19c6e980acb38cbf0b7492f3602e793fa045583336e32cbf;
  0x1ded1eeea74691a3f1f8fbed3c91ddd3e16bf7d01883e973f0805db1f954085bf;
  0x1411c312faa6d47bfa045583336e32cbfe1d1eeea74691a3f1c8fbed3c91ddd3e;
  0x12bf377c46ffdb4bf7b80f71189158abf591f9928b98a793f682177f8c7225dbf;
  0x14b61cd0e94a34a3f56a1f87fdc5d0d3f05e6374c71995e3f767fdddc916c713f;
  0x1323972859f0b55bf8df5d3e6ff6f4b3ffc85a4924d3f5f3f8793422ee9de42bf;
  0x13cc55ceb2650553f5ffc62b4afce913f4587d9bcbb167b3f65af3de644c192bf;
  0x1238e669ce9f19bbfa8de82276696943f36c8a3bd572c82bf7ad007a055b294bf;
  0x1616715c080ff783f05e6374c71995e3f757fdddc916c713f313972859f0b55bf;
  0x136c8a3bd572c82bf7ad007a055b294bf606715c080ff783fa7cdb2f48d7d64bf;
  0x16b63b7e6f9e0813f1e08e87560e6823f8df5d3e6ff6f4b3ffd85a4924d3f5f3f;
  0x18593422ee9de42bf05e6374c71995ebf767fdddc916c71bf323972859f0b553f;
  0x18df5d3e6ff6f4bbffc85a4924d3f5fbf8793422ee9de423f3cc55ceb265055bf;
  0x15ffc62b4afce91bf4587d9bcbb167bbf65af3de644c1923f238e669ce9f19b3f;
  0x1a8de8227669694bf36c8a3bd572c823f7ad007a055b2943f616715c080ff78bf;
  0x105e6374c71995ebf757fdddc916c71bf313972859f0b553f36c8a3bd572c823f;
  0x17ad007a055b2943f606715c080ff78bfa7cdb2f48d7d643f6b63b7e6f9e081bf;
  0x11e08e87560e682bf8df5d3e6ff6f4bbffd85a4924d3f5fbf8593422ee9de423f;
  0x178964e65d75c5b3f1d5ecbe97acf6d3f868f0d93606352bf77173ea2fb9349bf;
  0x19e985c87c0dd5bbf84fc1f3c5c30413f07d787771641583f61c34044933b923f;
  0x1586bb7362e947a3f10639f8fa62d93bf0f518042b5db9abf27792da8348d943f;
  0x1110b47b1ca79833f5906037bcf37953f4298d195142d7abf79964e65d75c5b3f;
  0x11d5ecbe97acf6d3f888f0d93606352bf0f0b47b1ca79833f5806037bcf37953f;
  0x13e98d195142d7abffed13527332967bf8fa2a565353e813f36f48e93cc37833f;
  0x174173ea2fb9349bf9e985c87c0dd5bbf82fc1f3c5c30413f78964e65d75c5bbf;
  0x11d5ecbe97acf6dbf868f0d936063523f77173ea2fb93493f9e985c87c0dd5b3f;
  0x184fc1f3c5c3041bf07d78777164158bf61c34044933b92bf586bb7362e947abf;
  0x110639f8fa62d933f0f518042b5db9a3f27792da8348d94bf110b47b1ca7983bf;
  0x15906037bcf3795bf4298d195142d7a3f79964e65d75c5bbf1d5ecbe97acf6dbf;
  0x1888f0d936063523f0f0b47b1ca7983bf5806037bcf3795bf3e98d195142d7a3f;
  0x1fed135273329673f8fa2a565353e81bf36f48e93cc3783bf74173ea2fb93493f;
  0x19e985c87c0dd5b3f82fc1f3c5c3041bfc66fc8930ac5513f5fe8867c0c3870bf;
  0x10fa2006328d0983f298e25268ce8f53ebd7a1fa417ff13bf852aa2949f973e3f;
  0x1f4d0cca0972253bf63c94d9c2f76713fa154b0953de89abfc8abfdcb272a4ebf;
  0x19dd908f86d866b3fa4e6d6bf7b3f95bfd08bbf50518df3be62ca368f81d8113f;
  0x16a85d2244a4d3bbfc76fc8930ac5513f5fe8867c0c3870bf0ea2006328d0983f;
  0x1cf8bbf50518df3be61ca368f81d8113f6a85d2244a4d3bbf3c1a2995d9a5083f;
  0x16bcd4ad9449c26bf893a90b1906b4c3f298e25268ce8f53ebd7a1fa417ff13bf;
  0x1832aa2949f973e3fc66fc8930ac551bf5fe8867c0c38703f0fa2006328d098bf;
  0x1298e25268ce8f5bebd7a1fa417ff133f852aa2949f973ebff4d0cca09722533f;
  0x163c94d9c2f7671bfa154b0953de89a3fc8abfdcb272a4e3f9dd908f86d866bbf;
  0x1a4e6d6bf7b3f953fd08bbf50518df33e62ca368f81d811bf6a85d2244a4d3b3f;
  0x1c76fc8930ac551bf5fe8867c0c38703f0ea2006328d098bfcf8bbf50518df33e;
  0x161ca368f81d811bf6a85d2244a4d3b3f3c1a2995d9a508bf6bcd4ad9449c263f;
  0x1893a90b1906b4cbf298e25268ce8f5bebd7a1fa417ff133f832aa2949f973ebf;
  0x1a190a71ed26961bfcef0d666d25a91bffb81427709bc663f18461b2cb99d28bf;
  0x18a4a3238858858bfd4d4bcdbb211303f3a3922d96dbc79bf53df80db369ca2bf;
  0x10c88add4ee37903fceba9d2f414a52bf637fee6060db733fdcccadec239f823f;
  0x136186ec996a611bf3d66f8b9629741bf48bc46ec5f0b173fa290a71ed26961bf;
  0x1cef0d666d25a91bffd81427709bc663f36186ec996a611bf3e66f8b9629741bf;
  0x148bc46ec5f0b173f96156607149b37bf2f14bba08046863fee8e9cf38f99803f;
  0x118461b2cb99d28bf8a4a3238858858bfd4d4bcdbb211303fa190a71ed269613f;
  0x1cef0d666d25a913ffb81427709bc66bf18461b2cb99d283f8a4a32388588583f;
  0x1d4d4bcdbb21130bf3a3922d96dbc793f53df80db369ca23f0c88add4ee3790bf;
  0x1ceba9d2f414a523f637fee6060db73bfdcccadec239f82bf36186ec996a6113f;
  0x13d66f8b96297413f48bc46ec5f0b17bfa290a71ed269613fcef0d666d25a913f;
  0x1fd81427709bc66bf36186ec996a6113f3e66f8b96297413f48bc46ec5f0b17bf;
  0x196156607149b373f2f14bba0804686bfee8e9cf38f9980bf18461b2cb99d283f;
  0x18a4a32388588583fd4d4bcdbb21130bfde491374a78e87bfd977d84e77d1693f;
  0x11608e2c50cc6523faa8d574a151ab1bfee4ad5bd48be923f6058b6591c427b3f;
  0x1c8a9b10ca88eacbf6af84f0e08c8ab3f02008461c2ff783fa5a2f5839be5a63f;
  0x12c970923ce5d9b3f869b70b0b30170bfc035dbd64beb7ebf778041187ff1603f;
  0x1b527898ffda3483fde491374a78e87bfd677d84e77d1693f1608e2c50cc6523f;
  0x1c035dbd64beb7ebf768041187ff1603fb627898ffda3483f6851492c01db613f;
  0x1464cc8a2aca6a33f30382b2e419f353fa98d574a151ab1bfeb4ad5bd48be923f;
  0x16058b6591c427b3fde491374a78e873fd977d84e77d169bf1608e2c50cc652bf;
  0x1aa8d574a151ab13fee4ad5bd48be92bf6058b6591c427bbfc8a9b10ca88eac3f;
  0x16af84f0e08c8abbf02008461c2ff78bfa5a2f5839be5a6bf2c970923ce5d9bbf;
  0x1869b70b0b301703fc035dbd64beb7e3f778041187ff160bfb527898ffda348bf;
  0x1de491374a78e873fd677d84e77d169bf1608e2c50cc652bfc035dbd64beb7e3f;
  0x1768041187ff160bfb627898ffda348bf6851492c01db61bf464cc8a2aca6a3bf;
  0x130382b2e419f35bfa98d574a151ab13feb4ad5bd48be92bf6058b6591c427bbf;
  0x183a909dade7e633fe48b7b9bf2f6743fe6ccbcef60065abf06c070886d7f583f;
  0x130f5cdb7ff576a3f35161fdfe75950bfc091df1c8500563f1e9e63833eef913f;
  0x1f1fae0bca1f37a3f897bf6cd969590bf8af19b68e3b094bf47f179e59eb9923f;
  0x12081ea17c3f986bfc077e57af8b498bf186bfe3aa4ab7e3f83a909dade7e633f;
  0x1e48b7b9bf2f6743fe4ccbcef60065abf2281ea17c3f986bfc277e57af8b498bf;
  0x11c6bfe3aa4ab7e3f85529cff2d1276bfa8048d4841e1683f8e26d59c5fad863f;
  0x108c070886d7f583f30f5cdb7ff576a3f37161fdfe75950bf83a909dade7e63bf;
  0x1e48b7b9bf2f674bfe6ccbcef60065a3f06c070886d7f58bf30f5cdb7ff576abf;
  0x135161fdfe759503fc091df1c850056bf1e9e63833eef91bff1fae0bca1f37abf;
  0x1897bf6cd9695903f8af19b68e3b0943f47f179e59eb992bf2081ea17c3f9863f;
  0x1c077e57af8b4983f186bfe3aa4ab7ebf83a909dade7e63bfe48b7b9bf2f674bf;
  0x1e4ccbcef60065a3f2281ea17c3f9863fc277e57af8b4983f1c6bfe3aa4ab7ebf;
  0x185529cff2d12763fa8048d4841e168bf8e26d59c5fad86bf08c070886d7f58bf;
  0x130f5cdb7ff576abf37161fdfe759503f60af6710bffb573ff4a34d585338733f;
  0x1f7763f3aa2b453bf4e32e1c4381e40bf80c4cdff6ad559bffbf99b30807c3a3f;
  0x12edfa94e53813f3f834387d6efd08e3f3fe2013ccaaf7d3f3ab97454314f8ebf;
  0x17ef8ef94e15fa1bf966fafd11a47943f5a984120ec38753f842ca872e201913f;
  0x12a989bcbe16f71bf60af6710bffb573ff4a34d585338733ff7763f3aa2b453bf;
  0x15b984120ec38753f842ca872e201913f2a989bcbe16f71bff48df638305f52bf;
  0x13be5a849764c843faa1f1afe048a813f4f32e1c4381e40bf80c4cdff6ad559bf;
  0x1fdf99b30807c3a3f60af6710bffb57bff4a34d58533873bff7763f3aa2b4533f;
  0x14e32e1c4381e403f80c4cdff6ad5593ffbf99b30807c3abf2edfa94e53813fbf;
  0x1834387d6efd08ebf3fe2013ccaaf7dbf3ab97454314f8e3f7ef8ef94e15fa13f;
  0x1966fafd11a4794bf5a984120ec3875bf842ca872e20191bf2a989bcbe16f713f;
  0x160af6710bffb57bff4a34d58533873bff7763f3aa2b4533f5b984120ec3875bf;
  0x1842ca872e20191bf2a989bcbe16f713ff48df638305f523f3be5a849764c84bf;
  0x1aa1f1afe048a81bf4f32e1c4381e403f80c4cdff6ad5593ffdf99b30807c3abf;
  0x126c2ab1519b6513fd3c19c5b4d2570bf80943a39e83a993fc3129a64247422bf;
  0x1e5deaa168cd2403f46175deba0496abfd618c4a6ab7053bf24fefd6f9db7713f;
  0x1d4cd5c4412e79bbfe184cf8f54584dbfa8319fa3febd6a3f3ada1950701c95bf;
  0x1861f126be822203fa39cd33f816b3dbfe04b60288efc663f27c2ab1519b6513f;
  0x1d3c19c5b4d2570bf7f943a39e83a993f861f126be822203fa39cd33f816b3dbf;
  0x1e04b60288efc663f133f3f4200aa013f48308ea3b13e20bfcefa6dd0e872423f;
  0x1c3129a64247422bfe5deaa168cd2403f46175deba0496abf26c2ab1519b651bf;
  0x1d3c19c5b4d25703f80943a39e83a99bfc3129a642474223fe5deaa168cd240bf;
  0x146175deba0496a3fd618c4a6ab70533f24fefd6f9db771bfd4cd5c4412e79b3f;
  0x1e184cf8f54584d3fa8319fa3febd6abf3ada1950701c953f861f126be82220bf;
  0x1a39cd33f816b3d3fe04b60288efc66bf27c2ab1519b651bfd3c19c5b4d25703f;
  0x17f943a39e83a99bf861f126be82220bfa39cd33f816b3d3fe04b60288efc66bf;
  0x1133f3f4200aa01bf48308ea3b13e203fcefa6dd0e87242bfc3129a642474223f;
  0x1e5deaa168cd240bf46175deba0496a3fa0778216b228393fc460d5f32dd18cbf;
  0x1c8ec7a5e8799343f0e523630cfb625bf67737be410df783f08e452a974c721bf;
  0x1d1756eb1b9c23e3f3ccadfe21dc7a0bf55e907f8dc5f833f1abc107c64403dbf;
  0x1585e52776d074a3f8cc9e98dc4d6813fe05ebeb040980fbfd7b7a7822518623f;
  0x1b0068e0685de09bfa0778216b228393fc460d5f32dd18cbfc0ec7a5e8799343f;
  0x1e05ebeb040980fbfd8b7a7822518623fb8068e0685de09bf237bcaaf795942bf;
  0x1c9a210d17950743f66005b1afca5813f0e523630cfb625bf68737be410df783f;
  0x118e452a974c721bfa0778216b22839bfc460d5f32dd18c3fc8ec7a5e879934bf;
  0x10e523630cfb6253f67737be410df78bf08e452a974c7213fd1756eb1b9c23ebf;
  0x13ccadfe21dc7a03f55e907f8dc5f83bf1abc107c64403d3f585e52776d074abf;
  0x18cc9e98dc4d681bfe05ebeb040980f3fd7b7a782251862bfb0068e0685de093f;
  0x1a0778216b22839bfc460d5f32dd18c3fc0ec7a5e879934bfe05ebeb040980f3f;
  0x1d8b7a782251862bfb8068e0685de093f237bcaaf7959423fc9a210d1795074bf;
  0x166005b1afca581bf0e523630cfb6253f68737be410df78bf18e452a974c7213f;
  0x1a05c3720940568bff79badcdfcae543f0a86d1ebb813203f3419dcf54579b0bf;
  0x162d4965a6b5e9c3f0c829006fb0c663f63fc22b2d90eb4bfe2d7cf1563f5b43f;
  0x1eaf013fb0e4a3c3fa50a381aa00db33f5f7d5fa0697b903f9f269538696878bf;
  0x1c63f0f4e853a54bfc8563902e06a413f88caa794a5130b3fa15c3720940568bf;
  0x1f89badcdfcae543f0a86d1ebb813203fc63f0f4e853a54bfc9563902e06a413f;
  0x188caa794a5130b3fff65ff494943a83fcee7bea9e1669c3f8f81b56c7ac673bf;
  0x13519dcf54579b0bf64d4965a6b5e9c3f0c829006fb0c663fa05c37209405683f;
  0x1f79badcdfcae54bf0a86d1ebb81320bf3419dcf54579b03f62d4965a6b5e9cbf;
  0x10c829006fb0c66bf63fc22b2d90eb43fe2d7cf1563f5b4bfeaf013fb0e4a3cbf;
  0x1a50a381aa00db3bf5f7d5fa0697b90bf9f2695386968783fc63f0f4e853a543f;
  0x1c8563902e06a41bf88caa794a5130bbfa15c37209405683ff89badcdfcae54bf;
  0x10a86d1ebb81320bfc63f0f4e853a543fc9563902e06a41bf88caa794a5130bbf;
  0x1ff65ff494943a8bfcee7bea9e1669cbf8f81b56c7ac6733f3519dcf54579b03f;
  0x164d4965a6b5e9cbf0c829006fb0c66bfb70f7e7773715f3f275fee12623f703f;
  0x17ea16fcf3e8e54bf4b7864f2724f573f068acffc1a17683f223f7ced507a4ebf;
  0x1aa62ad60e8c8593f80cdfaaac274923f3c36bf2bd94f7a3f53bcaf28a2918ebf;
  0x1b2c02c676b7790bf30dfc956a19f913feac54a11d66289bf4580aa83453c9abf;
  0x120824d048c98803fb80f7e7773715f3f275fee12623f703f81a16fcf3e8e54bf;
  0x1e9c54a11d66289bf4680aa83453c9abf1f824d048c98803f40ebe7fe994a7ebf;
  0x1108ea0f186df40bf125f032e142a893f4b7864f2724f573f078acffc1a17683f;
  0x1203f7ced507a4ebfb70f7e7773715fbf275fee12623f70bf7ea16fcf3e8e543f;
  0x14b7864f2724f57bf068acffc1a1768bf223f7ced507a4e3faa62ad60e8c859bf;
  0x180cdfaaac27492bf3c36bf2bd94f7abf53bcaf28a2918e3fb2c02c676b77903f;
  0x130dfc956a19f91bfeac54a11d662893f4580aa83453c9a3f20824d048c9880bf;
  0x1b80f7e7773715fbf275fee12623f70bf81a16fcf3e8e543fe9c54a11d662893f;
  0x14680aa83453c9a3f1f824d048c9880bf40ebe7fe994a7e3f108ea0f186df403f;
  0x1125f032e142a89bf4b7864f2724f57bf078acffc1a1768bf203f7ced507a4e3f;
  0x1f00d06af2c6547bf58a4bd9e9d365abf02573f4d90e83f3f2a2b006c5d91303f;
  0x156915aee4490423fde03a63bbf9826bfe38f2932eca4583f8c4ca0d61048923f;
  0x1ebc931de1d847a3ff23939db658794bff2d421c6712c9fbf1753c7e8cfad953f;
  0x1a1a3b175b24a7f3f140e10acd287913f1b99b1dad85675bff00d06af2c6547bf;
  0x158a4bd9e9d365abf02573f4d90e83f3fa2a3b175b24a7f3f140e10acd287913f;
  0x11d99b1dad85675bfdfef2f06e24953bfe2082f54bd41883fdae85713c500813f;
  0x12a2b006c5d91303f56915aee4490423fe003a63bbf9826bff00d06af2c65473f;
  0x158a4bd9e9d365a3f02573f4d90e83fbf2a2b006c5d9130bf56915aee449042bf;
  0x1de03a63bbf98263fe38f2932eca458bf8c4ca0d6104892bfebc931de1d847abf;
  0x1f23939db6587943ff2d421c6712c9f3f1753c7e8cfad95bfa1a3b175b24a7fbf;
  0x1140e10acd28791bf1b99b1dad856753ff00d06af2c65473f58a4bd9e9d365a3f;
  0x102573f4d90e83fbfa2a3b175b24a7fbf140e10acd28791bf1d99b1dad856753f;
  0x1dfef2f06e249533fe2082f54bd4188bfdae85713c50081bf2a2b006c5d9130bf;
  0x156915aee449042bfe003a63bbf98263f6ef7d5af55a3503fea89472ffa816ebf;
  0x19da39b42ad1f953f92b53c16b0fa25bfa9643b7a9626443f4ff6ab2eade76bbf;
  0x12678fdacab5b50bf058484da31fe6d3f81318d7684de94bfb6e73d4982824fbf;
  0x1c47cee190ee36c3f77503c43781a94bfde70f54d9e95253f7e124535edc943bf;
  0x1640a77ac5b676b3f6ef7d5af55a3503fea89472ffa816ebf9da39b42ad1f953f;
  0x1dc70f54d9e95253f7d124535edc943bf630a77ac5b676b3f2417e5b43dc2e13e;
  0x1dc0fb75a3b6000bf6044761b7644133f92b53c16b0fa25bfa8643b7a9626443f;
  0x14ff6ab2eade76bbf6ef7d5af55a350bfea89472ffa816e3f9da39b42ad1f95bf;
  0x192b53c16b0fa253fa9643b7a962644bf4ff6ab2eade76b3f2678fdacab5b503f;
  0x1058484da31fe6dbf81318d7684de943fb6e73d4982824f3fc47cee190ee36cbf;
  0x177503c43781a943fde70f54d9e9525bf7e124535edc9433f640a77ac5b676bbf;
  0x16ef7d5af55a350bfea89472ffa816e3f9da39b42ad1f95bfdc70f54d9e9525bf;
  0x17d124535edc9433f630a77ac5b676bbf2417e5b43dc2e1bedc0fb75a3b60003f;
  0x16044761b764413bf92b53c16b0fa253fa8643b7a962644bf4ff6ab2eade76b3f;
  0x165bc5c1f17027cbf45ba74cdf71093bf1373184fe624753f49ea0c3dd778653f;
  0x1ebf6d0ffd63b7d3f3f858b9db73560bfd0bf1b3f488c90bfa071c3f1dcd69ebf;
  0x19148cd7dba43943fe8911d21c9985cbf62764a7bf4b4823f5ecc28d51d3e823f;
  0x1736b2d404a21513fa9bfeb4b7c52673faebf955627dd49bf66bc5c1f17027cbf;
  0x146ba74cdf71093bf1473184fe624753f736b2d404a21513faabfeb4b7c52673f;
  0x1b3bf955627dd49bf104609e23c0d433f65c05196c3ae8f3f3c038168524a7d3f;
  0x14bea0c3dd778653feef6d0ffd63b7d3f41858b9db73560bf65bc5c1f17027c3f;
  0x145ba74cdf710933f1373184fe62475bf49ea0c3dd77865bfebf6d0ffd63b7dbf;
  0x13f858b9db735603fd0bf1b3f488c903fa071c3f1dcd69e3f9148cd7dba4394bf;
  0x1e8911d21c9985c3f62764a7bf4b482bf5ecc28d51d3e82bf736b2d404a2151bf;
  0x1a9bfeb4b7c5267bfaebf955627dd493f66bc5c1f17027c3f46ba74cdf710933f;
  0x11473184fe62475bf736b2d404a2151bfaabfeb4b7c5267bfb3bf955627dd493f;
  0x1104609e23c0d43bf65c05196c3ae8fbf3c038168524a7dbf4bea0c3dd77865bf;
  0x1eef6d0ffd63b7dbf41858b9db735603f]%N.
Definition file_94 : list N := [0x1934e554d5059010076007b276465736372273a205b282773616d706c65272c20;
  0x1273c693427292c202827737472756374757265272c20273c693427292c202827;
  0x161746f6d272c20273c693427295d2c2027666f727472616e5f6f72646572273a;
  0x12046616c73652c20277368617065273a202833302c292c207d2020202020200a;
  0x10000000000000000000000000000000000000000040000000100000000000000;
  0x10000000001000000000000000500000002000000000000000000000002000000;
  0x10000000006000000030000000000000000000000030000000000000007000000;
  0x10500000000000000000000000500000000000000090000000600000001000000;
  0x10000000006000000010000000400000007000000010000000000000007000000;
  0x10100000005000000080000000100000000000000080000000100000006000000;
  0x10900000001000000000000000900000001000000070000000b00000001000000;
  0x1000000000b00000001000000090000000c00000002000000000000000c000000;
  0x102000000040000000d00000002000000000000000d0000000200000005000000;
  0x10e00000002000000000000000e00000002000000060000000f00000002000000;
  0x1000000000f000000020000000700000011000000020000000000000011000000;
  0x10200000009000000]%N.
Definition file_95 : list N := [0x1934e554d5059010076007b276465736372273a205b28276772616469656e745f;
  0x1646972656374696f6e272c20273c693427295d2c2027666f727472616e5f6f72;
  0x1646572273a2046616c73652c20277368617065273a2028332c292c207d202020;
  0x1202020202020202020202020202020202020202020202020202020202020200a;
  0x1000000000100000002000000]%N.
Definition file_96 : list N := [0x1934e554d5059010076007b276465736372273a205b282773706865726963616c;
  0x15f6861726d6f6e6963735f6d272c20273c693427295d2c2027666f727472616e;
  0x15f6f72646572273a2046616c73652c20277368617065273a2028332c292c207d;
  0x1202020202020202020202020202020202020202020202020202020202020200a;
  0x1ffffffff0000000001000000]%N.
Definition file_97 : list N := [0x1934e554d5059010076007b276465736372273a20273c6638272c2027666f7274;
  0x172616e5f6f72646572273a2046616c73652c20277368617065273a2028392c20;
  0x1332c2033292c207d202020202020202020202020202020202020202020202020;
  0x1202020202020202020202020202020202020202020202020202020202020200a;
  0x15eb0b4aa224db13f14de81d47a536a3f69e379ad954b97bf60136b00dc165dbf;
  0x159c9e9b118716e3f7e0ec8f755a53a3fc3e7cbf73dceaa3f4e8211c72f948a3f;
  0x1c8b55a2d46e399bf28745f86c702ae3ffa953d5b82fb8ebf4470c792618f97bf;
  0x1e728b85c3ba0653f0024a85547f040bf0c68994ea9de53bf5ac36d4c074c9dbf;
  0x1660cc0c18fe6903f871626ae5ffc9b3fd29cbda26894acbf9ae3c759f869893f;
  0x1a8caf3455a6ca03f0039f4d9678268bf18cfe6a42c6d22bf06e3309ccf064b3f;
  0x1e1cb68a7a3eaa0bfb6e62240e88680bf620cc03e329d983f6b3e0363646cb03f;
  0x1890256ecb97e833f6e50ba2cc97699bf88d6bd2b73838f3f6292b541fabb7a3f;
  0x1ef80cd88ce25543f8cd024bf7f35a53fa697b97efc48883f0c3a1a42193999bf;
  0x1a019ab0bb03ea73f00ba593cd04f2c3f247917dfe32894bf8261bc7d45e08fbf;
  0x110d4a093b73c353f9ca64369903c7f3fb11f2f0d301199bf632c4a736331713f;
  0x1f4034d37a26e973f89bafc230799a9bffdc1647ef31e863f88fe5d492c06a13f;
  0x136483d637bd0823f7efc9e1d605160bfe061656bf7fe2b3f2c169279f88eaabf;
  0x1f83d1bfcacb27fbf6dceed99498b9d3fdb8ce97d20e2a73f6665942d110b82bf;
  0x16e882321e84895bf9282f771dd3f8f3f3e61621a18fb733f56c22230d76b69bf;
  0x1b8ed7c39c1e4a63faa69b2cc27468c3fabecc03bcf2d9bbffd0c6f846459a83f;
  0x158111c7b3c9d89bf0a397228835e9fbf7ee8b48d5f7493bf3abe349b4b86533f;
  0x1facc554ef98f7f3f3b64bafd569a94bf63b6f5d6bbc8953f10130b3e8a6c9e3f;
  0x1939ee01db6a1b1bf3f3102a6e257643f7d852b69c686a43f0cb0707842456bbf;
  0x16ae6bbbc2be080bf868cb67c3746623faa234679627293bfc897482e18ed8abf;
  0x183066f8154319c3f]%N.
Definition file_98 : list N := [0x1934e554d5059010076007b276465736372273a205b2827737472756374757265;
  0x1272c20273c693427292c20282763656e746572272c20273c693427295d2c2027;
  0x1666f727472616e5f6f72646572273a2046616c73652c20277368617065273a20;
  0x128392c292c207d2020202020202020202020202020202020202020202020200a;
  0x10000000001000000000000000200000000000000030000000100000001000000;
  0x10100000002000000010000000300000002000000010000000200000002000000;
  0x10200000003000000]%N.
Definition file_99 : list N := [0x1934e554d5059010076007b276465736372273a205b282773706865726963616c;
  0x15f6861726d6f6e6963735f6d272c20273c693427295d2c2027666f727472616e;
  0x15f6f72646572273a2046616c73652c20277368617065273a2028332c292c207d;
  0x1202020202020202020202020202020202020202020202020202020202020200a;
  0x1ffffffff0000000001000000]%N.
Definition file_100 : list N := [0x1934e554d5059010076007b276465736372273a205b28276e272c20273c693427;
  0x1295d2c2027666f727472616e5f6f72646572273a2046616c73652c2027736861;
  0x17065273a2028332c292c207d2020202020202020202020202020202020202020;
  0x1202020202020202020202020202020202020202020202020202020202020200a;
  0x1000000000100000002000000]%N.
Definition file_101 : list N := [0x1934e554d5059010076007b276465736372273a20273c6638272c2027666f7274;
  0x172616e5f6f72646572273a2046616c73652c20277368617065273a202835392c;
  0x120332c20332c2033292c207d2020202020202020202020202020202020202020;
  0x1202020202020202020202020202020202020202020202020202020202020200a;
  0x1aa91b3c358bea13fab01dfba9b62a8bf6f5f6416a41d873fd2460440803d75bf;
  0x150546f3f548a613f464cf90cb5b4213facc740a3f960aabffe9eb2a6219c7bbf;
  0x14a0158de162ca2bfc9543a23e2e191bf74c395d5f05bb0bf3241f5ec17579abf;
  0x1dcbb766bcc4b48bf6cb0bcf2bdf6673f1e5772f14f2d45bfac91b3c358bea13f;
  0x1ab01dfba9b62a8bf6f5f6416a41d873fdcbb766bcc4b48bf6cb0bcf2bdf6673f;
  0x1165772f14f2d45bf891251d75451b33fbc2e53a4a645c4bfb30550cfd32898bf;
  0x1ca460440803d75bf48546f3f548a613f524cf90cb5b4213fd816cf9b782f933f;
  0x153b045223667983f35f3adf6e08583bfa85203448efc36bf39e75b7ff03c3dbf;
  0x178bf92361564273f1285b60241ca94bf7878cd3ecd3d82bf2ac5c562a7cd913f;
  0x123142573b89785bf1c3a1e0942ba6c3f833f8e74e76f893fa13de5603bc4313f;
  0x1d8aed13c2f99363f6c7d85c53f1422bfd816cf9b782f933f52b045223667983f;
  0x136f3adf6e08583bfa13de5603bc4313fd8aed13c2f99363f6c7d85c53f1422bf;
  0x1631e64e6bc1b703ff90fcb481f72963f2b2f5de8b1b4743fa95203448efc36bf;
  0x138e75b7ff03c3dbf78bf92361564273f1c1de165ecff9cbfe59a6ceafeb9843f;
  0x1da1b98b1851b603f6ea89422396ea5bfccfac16d2ea28e3fb8984ddf80ce673f;
  0x14c4d29f3860da53f4a1765578c4c9d3fbcde64d592c16fbf80521d6a31e3893f;
  0x109eb9dc131dca33f00c85795f61d5fbfe828f77c8f61b1bf85d455c557d8983f;
  0x1ce9e94d2e64e733f1f1de165ecff9cbfe69a6ceafeb9843fdb1b98b1851b603f;
  0x1e828f77c8f61b1bf85d455c557d8983fce9e94d2e64e733fd4a46493d962a5bf;
  0x1466bdccfbed0ad3f6c668b80c3c65e3f6fa89422396ea5bfcefac16d2ea28e3f;
  0x1b9984ddf80ce673f24ecee3a3a56a0bf906829b30604893f979f988e45575f3f;
  0x1c04c6dc68207a83f0276cd4fbe6592bf32ccbdc4970c67bf3126c780814ea53f;
  0x1a616b761409f9d3f4627521d4ec570bff28da7854a42913fcf392506fda9a33f;
  0x14268c787a06165bf70199d7c878cb13fc661e9d02cdf9abf358121d147d570bf;
  0x124ecee3a3a56a0bf8f6829b30604893f999f988e45575f3f70199d7c878cb13f;
  0x1c661e9d02cdf9abf368121d147d570bf8cb714160822a3bfeaf01156b34aae3f;
  0x1c47aaa649afe443fc04c6dc68207a83f0276cd4fbe6592bf33ccbdc4970c67bf;
  0x1b4da3bc4031f773f42e082d5fa45963f24e813a485e274bf973ac06aecbc3c3f;
  0x1a930120b2aaf5b3f1a76e5dc5af539bf6a670052413287bfe9b1756b79289fbf;
  0x15dca5fdc1157923f3377b606670164bfd8b12379fc2d6f3f07c5f67cc03e843f;
  0x1a5da29ea90e82bbf0a38cbe897e24abfb06a21738935293fb4da3bc4031f773f;
  0x142e082d5fa45963f24e813a485e274bfa4da29ea90e82bbf0838cbe897e24abf;
  0x1ac6a21738935293fdc9493f99280323f07cc76f6784b8d3fe103e3b012697e3f;
  0x1953ac06aecbc3c3fa830120b2aaf5b3f1876e5dc5af539bfb2489c775c87533f;
  0x1fa8ed550fcc694bf0c3159bea68441bff9c055d33e2df73ee256496d93a838bf;
  0x1207fde2b63cae4be3049d89502513b3f17302689c87a87bf6c3117bff4b9803f;
  0x1ddd1ae5d00414f3f5f797709a21995bfeb5002ddae3b803facf0c95264fafc3e;
  0x1d0713d1cacd43ebf603f6463a1fee9beb2489c775c87533ffa8ed550fcc694bf;
  0x1103159bea68441bfadf0c95264fafc3ed2713d1cacd43ebf583f6463a1fee9be;
  0x112ea1cfa319041bf221ed94ad479733f66dda33b039a813ffac055d33e2df73e;
  0x1e356496d93a838bf207fde2b63cae4be86af990bc89ea8bf32930e5c05b6b43f;
  0x19656d69712f0a2bf6ffd2749e51761bf4063068635d2503f80910df7274c38bf;
  0x1e05f8ef9a3da773f700aa9bd7e789d3f5c51538e3938803fed0141905dd0b93f;
  0x198b248eb5ce7adbf59566cf48221a8bf74a2a55560157c3f00684863ab4c143f;
  0x163c181c94c2b50bf88af990bc89ea8bf32930e5c05b6b43f9656d69712f0a2bf;
  0x174a2a55560157c3fc0674863ab4c143f60c181c94c2b50bfcb7099fd692bafbf;
  0x1267ef75bc941b1bfaaddc5dd8ebd9fbf6ffd2749e51761bf5063068635d2503f;
  0x180910df7274c38bf903bcb8d69dd0b3fd8321df52ad13e3fe557fc29caeb9a3f;
  0x19df5444a6275a23eee31f8cf046ad43e7649df7153d5313fda12a841b0d9f4be;
  0x12beecac7f3bf5abf5ae9e6809590b0bfa6730458d6de193fac6bf9409b1f43bf;
  0x15af318fd7dcb78bf203fe32e00408cbe1086d483333ebfbe684d5de9094b1bbf;
  0x1903bcb8d69dd0b3fd8321df52ad13e3fe557fc29caeb9a3f223fe32e00408cbe;
  0x11086d483333ebfbe684d5de9094b1bbff1a405495d331f3fc083ddd506753abf;
  0x1f9ade89ef866703faef5444a6275a23eee31f8cf046ad43e7749df7153d5313f;
  0x17ed62b43e51273bf9275d18e89288cbf5bedbf7258096e3f03f7961bb66c7abf;
  0x10c8aeeb8508193bfe0f3a65a5ece743ff7b16c808dbb8bbf4198d4cccfed9abf;
  0x1ca211c322db8923fb93680b2e19b47bfa0776f19f8aa873f7cfd8b8ec3c3803f;
  0x1864a3f6a672b61bfa08d5a93dc5879bf006d4ee4aa095b3f7fd62b43e51273bf;
  0x19475d18e89288cbf5bedbf7258096e3f864a3f6a672b61bfa08d5a93dc5879bf;
  0x1006d4ee4aa095b3f12f6ed8ea14b61bf534398e71e847e3f8acffc07e401833f;
  0x104f7961bb66c7abf0e8aeeb8508193bfe0f3a65a5ece743f3e4a24f4a04370bf;
  0x1d4512e76ded48abf30e821fdd1206b3fbfe452c68e3e783fa9e6979793ff933f;
  0x128f66c712f3874bf4752d0d9ca2f89bf29d787132ec79bbf1c8c5c5b1756923f;
  0x153cb4138a2b345bffa3ef9623a12873f5cb866b664cc803f1ef1050e78f05d3f;
  0x1f6cc535228b2783ff30c724910f858bf3e4a24f4a04370bfd4512e76ded48abf;
  0x130e821fdd1206b3f20f1050e78f05d3ff6cc535228b2783ff40c724910f858bf;
  0x12b0bd2e8a3b261bfc52a8b4771e5793ff8e3a9136f5b833fc0e452c68e3e783f;
  0x1aae6979793ff933f28f66c712f3874bfb28888d7f403b13f3d12ab410df799bf;
  0x13a0f1c20c17470bf0419e7eed5c5663f30858d8d126051bf6adc990d2e0626bf;
  0x1a6d051bcb1879f3f5d75a2b513e9a03f444b832a11186cbf7854d0c77cbab2bf;
  0x1efd408616b9bb23f4a3df4ccd660673fbfed81c9aa5b77bfae4de83964d2613f;
  0x199eb08ed1597363fb38888d7f403b13f3c12ab410df799bf3a0f1c20c17470bf;
  0x1c0ed81c9aa5b77bfaf4de83964d2613f9aeb08ed1597363f8134cca3b21db03f;
  0x158e49fd2c141953f132c5fc4830276bf0419e7eed5c5663f30858d8d126051bf;
  0x16adc990d2e0626bfc426e5413b5880bffe30abd4908d99bf9eb74227dd837a3f;
  0x180311dd7c99219bf6825368393fd33bfd8b0fe6542be143f41b3822025ae88bf;
  0x1fcc52169e1b398bfd716726d1dd4913f2b87e0d6bec371bf0080d48284ffd1be;
  0x19539827fd2d7863f6822cfbe520b10bf049efc19541529bffc17bd7d19070a3f;
  0x1c426e5413b5880bffd30abd4908d99bf9eb74227dd837a3f6922cfbe520b10bf;
  0x1059efc19541529bffc17bd7d19070a3fe820cec466ed453f66ff54fa4e06903f;
  0x168c6a133b60d7d3f80311dd7c99219bf6825368393fd33bfd8b0fe6542be143f;
  0x17adcf0ce2ce75dbf986ae20c204071bfbe07a75eebb4543ffc39565460c610bf;
  0x1c0b58838b05a23bf1c74ddf6623b073f5cd2adeba639553f1fef0c5d38ca913f;
  0x194855e9b651b7b3f6e880c23f69596bf9a28bb0cb8b1a2bf29ea452ccd55973f;
  0x14e8b4f7cd0fd4abf5296c91548245fbf0c25160cc9b0423f7bdcf0ce2ce75dbf;
  0x1986ae20c204071bfc007a75eebb4543f4d8b4f7cd0fd4abf5296c91548245fbf;
  0x10a25160cc9b0423f0f91a9783813573f64af77b2840e923f55c79e316ac97a3f;
  0x1fc39565460c610bfc1b58838b05a23bf1a74ddf6623b073f541138f8c70cb1bf;
  0x1571d98707062a03fbe6911c2ece0b13f2ebdf21f469273bf87dde3d8f86b613f;
  0x1cce85bf77bf4343f14e19d87d0e6b63fa8f8a18d1fa3c1bf9cffddf9e5c3b53f;
  0x12809b09cffc7913f3639d64b1fd3a8bfb723d08f508e913fbd29cb40eccd7e3f;
  0x138981e8d92384ebfe8eb4fe9a2af43bf541138f8c70cb1bf571d98707062a03f;
  0x1be6911c2ece0b13fbd29cb40eccd7e3f30981e8d92384ebff9eb4fe9a2af43bf;
  0x1f2deae822ea7bfbf095dc9f46602aebfac24f515f59c7d3f2ebdf21f469273bf;
  0x184dde3d8f86b613f0ce95bf77bf4343fa80c7b3a288f25bf9ae2e7efc4e824bf;
  0x10532462ae142a1bf59d3cbf7b57115bfb85861ef35cc14bf74e1e9b34d2b91bf;
  0x13bcd71b227f920bf9e9fb555e02d45bf7cc1149a560fa8bff8e120901529e33e;
  0x17bd94d3e01c640bf6c0cd0f1ed0593bf60e330429f770cbf9376a674eb9b0bbf;
  0x144ccef4dcaca86bfa80c7b3a288f25bf8ae2e7efc4e824bf0532462ae142a1bf;
  0x16ae330429f770cbf9076a674eb9b0bbf44ccef4dcaca86bf721554a5a9ef173f;
  0x11c8c83a3f0523cbf2c4caf3d1c6c5cbf5ad3cbf7b57115bf965861ef35cc14bf;
  0x174e1e9b34d2b91bf25b2fe14a3432fbf2a3cb9ab6b90283f8bd27a499a14a1bf;
  0x15f54e37c69521f3ffc95537d079c18bfc45fa1b7ac1c913f42f2e6b3136730bf;
  0x1eadb0cd2dab21ebf0cdd461f6676a8bffc72bf3bf4a403bfa394b17b01a232bf;
  0x190a09ca53f7292bffffc01e10d53143fc48d9cff07f00fbfb3dbec372335863f;
  0x125b2fe14a3432fbf2a3cb9ab6b90283f8ad27a499a14a1bf03fd01e10d53143f;
  0x1c68d9cff07f00fbfb4dbec372335863ff6c6dd892092143f9c93214d4d9a38bf;
  0x14aff61d5ea775dbf5b54e37c69521f3ffc95537d079c18bfc35fa1b7ac1c913f;
  0x14c1e7c61fa5364bf06e43a3bc5417bbfd87348090a735e3f63ea494dd82c12bf;
  0x1328d1327c85e28bf609ea9317f390b3f2ce1a8f9c677473f9a552efba93a903f;
  0x1f8332fedd9dd7c3f6e0269e85cb093bff2335159ca44a3bf1652bf920d83963f;
  0x137637122b28942bf4884080248db58bf7ef24b0794c43b3f4c1e7c61fa5364bf;
  0x106e43a3bc5417bbfd87348090a735e3f37637122b28942bf4a84080248db58bf;
  0x180f24b0794c43b3f684613622175503fc73e51485705913f96091c946ffb7b3f;
  0x163ea494dd82c12bf348d1327c85e28bf629ea9317f390b3f96cbc32dd3196ebf;
  0x1e938cea024d4563f9d3f38b92c862d3fc810c19acffe423f832aa312f8cf2cbf;
  0x190ceb3a4a2a102bf992961015b0dbbbfc472e1b807afb53f8815e036cc54743f;
  0x1aef2796cda09b03f6296d066da5f953f13d89d270bef75bff821ea709386ea3e;
  0x1441f8a4a031ed4be533449727604aabe96cbc32dd3196ebfe938cea024d4563f;
  0x19c3f38b92c862d3ff921ea709386ea3e431f8a4a031ed4be543449727604aabe;
  0x1fc00b006fa0eb03f28bf98f21458953ff3b42ea011f475bfc810c19acffe423f;
  0x1802aa312f8cf2cbf90ceb3a4a2a102bf83cd59ca9fbab23fee07e62901699bbf;
  0x150562a6be4db73bfbb64bbbf9c53713f2c95c5d3955b59bfc636da76385f32bf;
  0x1725a744dfa41903f3aafedb52a75a33f0c9e24ee3f8662bfea7a6187cf1bafbf;
  0x143ded73c2ce8b03fa26925f69114673f9418353f56a27cbf5339c27307f4643f;
  0x10d1cebc6965c3e3f83cd59ca9fbab23fee07e62901699bbf50562a6be4db73bf;
  0x19418353f56a27cbf5239c27307f4643f0c1cebc6965c3e3fca88d5077f96ae3f;
  0x1a2506ba6167b963f72261e45512b75bfbb64bbbf9c53713f2895c5d3955b59bf;
  0x1c636da76385f32bf986ab1ba13959d3f750cc4f5bbb3a8bf08be8da67358923f;
  0x1f0fdb5628fa58c3f9681f8bf5e598e3fbbfef647661177bf8bf3dfff4e7bb2bf;
  0x11076bd7a3d1266bfc40d1d2bdd008ebf44300e484f739dbf07ace8de0c4db0bf;
  0x109c6518ef3ac93bf34a4350917b098bfedcddf2c7ee082bf2c4631efdcec743f;
  0x1966ab1ba13959d3f7a0cc4f5bbb3a8bf08be8da67358923f3aa4350917b098bf;
  0x1e5cddf2c7ee082bf2e4631efdcec743f3b9c2b652010b93f0b7a86242297c3bf;
  0x178cfe02d7da19bbff4fdb5628fa58c3f9a81f8bf5e598e3fbdfef647661177bf;
  0x1b285c9d579cf883f0f5a849fd5f9983f757ee18a46ff7fbfdde46070daee75bf;
  0x18c94e9994c1486bf72061b7947496c3fe853ad85af448bbfd996cb0fba7288bf;
  0x152e011bc0e68903fc652aa3f78d27fbfe047a806b95049bf13fe03e84b7d893f;
  0x1f1365330eb7a713fc3670328c398813f02e02b45258b66bfb385c9d579cf883f;
  0x1105a849fd5f9983f747ee18a46ff7fbff3365330eb7a713fc4670328c398813f;
  0x104e02b45258b66bf00f07bfccc069dbe021d0e294c738e3fe979a406c7757e3f;
  0x1dfe46070daee75bf8d94e9994c1486bf76061b7947496c3fbac78ab6643091bf;
  0x114a74df8bd757a3f4740fbbc6847503fd71c70628f38a5bf32f829b34d55903f;
  0x1c455892ded18643f0f109187b32eaa3fac79af7841ea993f321fa6a8ed2573bf;
  0x15ab6936baa60a53fb055d89efb9c9d3f0c58733379df70bf4bf68e375df7abbf;
  0x10712b3766186953f3a06d87f4d7c6a3fb9c78ab6643091bf19a74df8bd757a3f;
  0x14540fbbc6847503f4af68e375df7abbf0412b3766186953f3a06d87f4d7c6a3f;
  0x14866ef27922cb2bff09ff480c582b23f406bef6c6eec643fd81c70628f38a5bf;
  0x131f829b34d55903fc555892ded18643fc2c388b52b4f9fbf5a28f54a235e863f;
  0x191bbf84d8567613fe8f2b51b4006a23f905d2ebdf4c089bf9f0b246efe0964bf;
  0x1ca063c127683a63f6451fd18b6409c3f33d13205a0af70bfe0d5646edad476bf;
  0x194604ec11330a73fc4875efc4fad44bf2c730098a2e6b23fbc5c77fe8f019bbf;
  0x1b5a5cf5e750375bfc2c388b52b4f9fbf5a28f54a235e863f91bbf84d8567613f;
  0x12d730098a2e6b23fbe5c77fe8f019bbfb6a5cf5e750375bfd9a85ae5c0179bbf;
  0x15ec1afdbd801ab3f50b00a3691df4a3fe8f2b51b4006a23f905d2ebdf4c089bf;
  0x1a00b246efe0964bf5e7313e55da2723f060447d80713943f867d8be937d271bf;
  0x1605be84a146461bfcfa9c62c25bc82bf1880b5a5d1a1603f7043ced92d0385bf;
  0x1d57349812cd79fbfbf87696e62ec913f97e2f15931425ebfd84cd7b09d21753f;
  0x1f22ca9e6535e833fdbb74f120d6c4e3f1e35abc3f662703f490c99ee3a184dbf;
  0x15e7313e55da2723f070447d80713943f877d8be937d271bfdcb74f120d6c4e3f;
  0x11e35abc3f662703f490c99ee3a184dbfdad35900db0933bf84614322e94c883f;
  0x1e5aa0216f751803f605be84a146461bfd0a9c62c25bc82bf1880b5a5d1a1603f;
  0x18bd005b213ab34bf27529ed314f8523ffff0e737046f74bf8d0698d10791f4be;
  0x1cb49ee222de0123fc202d507445534bf19cd46a7950e4fbf9162df3104816c3f;
  0x11d942175afb68ebf2cb7ff4c2ca419bf71fa28f11989373f75f28e34766c59bf;
  0x1fd7c044b8f30dbbe9e30ed954ff4f83ef835406c8ce11abf8cd005b213ab34bf;
  0x128529ed314f8523f01f1e737046f74bffc7c044b8f30dbbe9e30ed954ff4f83e;
  0x1f835406c8ce11abf948fc6eb3d3cd93e867e3ab2b31ff7be8b4889771ac6173f;
  0x18e0698d10791f4becc49ee222de0123fc302d507445534bfb2c304e0a466613f;
  0x17b5016facf428dbffd713a88d1cd6fbf2c1d401fef3230bff36a621a603d5b3f;
  0x1eb689695699b3d3fc428da8dc2545a3fbe92c3be8dd085bfe1936844e2f2733f;
  0x1cd5cb5f2b2cc623f37372f63eb498fbf774f1fb89e996d3f43c635d8440833bf;
  0x1b7a9112b8a00603f7076630e8f64413fb2c304e0a466613f7a5016facf428dbf;
  0x1fd713a88d1cd6fbf42c635d8440833bfb6a9112b8a00603f7176630e8f64413f;
  0x19fc74353b0e325bf6cd359046bff543faf1ee1de7e9d803f2c1d401fef3230bf;
  0x1f26a621a603d5b3fec689695699b3d3fe79f82778817a0bf0b6cf0624e1cb43f;
  0x1484b3ba617eca2bfe757d11fe26d963fd6fa50e61a814bbf3e5a221e1893843f;
  0x10a832440f5d99e3f5dcdf18fd511963f60463513a4475a3f3c60e61a7095b43f;
  0x1f0fbc1721de1a7bffc084d264108a9bf110e2af774e7a3bfc08b558f5ba0533f;
  0x1c6e8fbd132254f3fe99f82778817a0bf0b6cf0624e1cb43f474b3ba617eca2bf;
  0x1110e2af774e7a3bfa88b558f5ba0533fc2e8fbd132254f3f96d3925b73059fbf;
  0x189f96628bd66b3bfeb8aa1ad2a07a0bfe857d11fe26d963faafa50e61a814bbf;
  0x13e5a221e1893843fd487fdc760361b3fb677063df928283f65ab67bdedf2983f;
  0x152c93efb01090ebf0a119d208caa1abfef46769373898bbf845a254daa0026bf;
  0x1cc193ea542f54dbf30c6794e1b39b0bf4ab2b01e7c34153f11713161def73ebf;
  0x1f61c7a8cad6c74bfd450113e23c6f53ef3fbb7e1e554033f8f4f3bf77df6733f;
  0x1c487fdc760361b3fb777063df928283f65ab67bdedf2983fdc50113e23c6f53e;
  0x1eafbb7e1e554033f8f4f3bf77df6733f1e3d7b4593101c3fa6ad38df4fec3bbf;
  0x150737558a5ed523f4bc93efb01090ebf1a119d208caa1abfee46769373898bbf;
  0x1024e53b19be472bff8bf4c3710ce87bf069b35dd95656b3fe1abbb3db03382bf;
  0x1639b9d9325ef96bfa650408b08657a3f58b34a2a8bc28cbf9e3c136ee1ca95bf;
  0x17e2a62fb4a2a923fb8819a14d4042cbfd04353d83ac98b3fc03cabe53c977f3f;
  0x1fa0995fc3c0e66bfdc63ddc92fca7bbf32728e1ea2fb5f3f004e53b19be472bf;
  0x1f8bf4c3710ce87bf069b35dd95656b3ffb0995fc3c0e66bfde63ddc92fca7bbf;
  0x133728e1ea2fb5f3ff7c4fe27b36670bfe4a47f2ab372703f3affd4127f6c853f;
  0x1e0abbb3db03382bf649b9d9325ef96bfa450408b08657a3f37378263e7557cbf;
  0x183b2441136ff92bfaec212f6cf38753f369cf4a01b42793ffd842c3e0def903f;
  0x1b4551fdfcaea72bfd3b488c30c1a8cbf8c9d158ff96a97bf607771ba104a923f;
  0x17929e957513c62bf06fbce7e9e4c803fd8b533f63af2823f7fa35e75a8b4673f;
  0x1ee5ca46f2ec97f3fc26b4c501fc161bf35378263e7557cbf82b2441136ff92bf;
  0x1acc212f6cf38753f80a35e75a8b4673fee5ca46f2ec97f3fc26b4c501fc161bf;
  0x1dc291c9bbd8b59bf6cc1bbf92cf6833f901bb67263ec813f369cf4a01b42793f;
  0x1fd842c3e0def903fb2551fdfcaea72bf6ad7932d47edac3ff2cb06b97ff98fbf;
  0x11c2c212e3cdc76bf3fd979030f0794bf8469a5ff3e23763fe60dcfd79ca75f3f;
  0x11ccb3a72a314903f5d0a722e59caa13fd2a3e3e8391551bf3033dd6152acadbf;
  0x1ca0663e74f36ac3f7c83d67b8d88793f33b4f60d367ba23f253cb72ab16d84bf;
  0x19cb15aebf3356dbf6cd7932d47edac3ff4cb06b97ff98fbf1d2c212e3cdc76bf;
  0x133b4f60d367ba23f223cb72ab16d84bf9ab15aebf3356dbfb0eb5993ea50a13f;
  0x13e5ef4e54d749e3fbbae1715cd3367bf40d979030f0794bf8269a5ff3e23763f;
  0x1e60dcfd79ca75f3fb059c72ac0a084bf363ddef8d5b596bf14eadd6b8ae07b3f;
  0x15094454b8d8a1cbfd79d62a3236c2fbf46cbd1492149133f6d0de2cc3d5592bf;
  0x1b1b0c8afab7999bf35bdf8b4aa0e943fe44ff1c6e5ac6dbfc4041529abe57a3f;
  0x1585a9912195a843f68b7a9301d810dbfb4e855b4cb3d20bf69aa6134bcef033f;
  0x1b159c72ac0a084bf373ddef8d5b596bf16eadd6b8ae07b3f66b7a9301d810dbf;
  0x1b4e855b4cb3d20bf66aa6134bcef033fc7d0ff8075ef593f38e268311476923f;
  0x134f0f2abf14b7a3f4f94454b8d8a1cbfd69d62a3236c2fbf45cbd1492149133f;
  0x140f38a92973d6dbfda0edef76e1186bf07bda2333a4a673f64a64212a5c1413f;
  0x186621a0244cd5a3f90c342c927493cbf0030c2d7c04cce3e26338baa51f18b3f;
  0x1107ed6b100397f3f1347f9971fdd90bf44d8c9726e79a2bf0da1f112913d953f;
  0x1a488b248fb67653fcbadd8aec827803fb53b6767c50c61bf40f38a92973d6dbf;
  0x1da0edef76e1186bf07bda2333a4a673fa688b248fb67653fccadd8aec827803f;
  0x1b63b6767c50c61bf08f2bd4ebbbf363fea7c7b0401118e3f18ac71ea1b1a7e3f;
  0x165a64212a5c1413f88621a0244cd5a3f94c342c927493cbf71f090621babadbf;
  0x1fa64c9df2521a03fbad7728c389caf3f7b06a36ec0c3953fb0ef0d18375375bf;
  0x17024cebde105413ff274acde1002b03fe5418f03f344c0bfb7cb33a522c5b23f;
  0x1d33416953f7c9f3f5fb8d62981b7a9bf5ee2dc4a4baf833f48cd3baba2fea3bf;
  0x11e90e09bab07713ffaf374e4c842743f71f090621babadbffa64c9df2521a03f;
  0x1bbd7728c389caf3f48cd3baba2fea3bf1a90e09bab07713ffef374e4c842743f;
  0x1dca235a0f2f7bdbfe32af75ab1a0adbf941c2410a54c713f7c06a36ec0c3953f;
  0x1b2ef0d18375375bf9024cebde105413f27bd33233e3d513fed09b945307478bf;
  0x1d9fe4260f5769abfcd206b26f860453fdc26e16269536ebf1b7d1b2ae56890bf;
  0x164ddd1cbc2745d3fd51a7d75454584bf3abed437f861a2bf29f207e194c8473f;
  0x1b7e1d28297406fbfe89d86ef6d9a83bf8d9ccf2f41343a3f6722ec1bd59562bf;
  0x17232df9f101d84bf28bd33233e3d513fed09b945307478bfdafe4260f5769abf;
  0x18d9ccf2f41343a3f6822ec1bd59562bf7332df9f101d84bf41a0222b048e353f;
  0x1adec10a02d9b59bf004c63b8453c273fcf206b26f860453fdc26e16269536ebf;
  0x11c7d1b2ae56890bfb717cc99bd6644bfeacef49f35e95e3f4d78d4506f21a1bf;
  0x154fec8101f9b313f4699a046f1ac4abf255b780f16918d3f7d57aae145b648bf;
  0x10a7c41b79640623f4fb47b962841a6bf48bd28d0399636bf5c45b76b692c503f;
  0x10c40e50371f995bfcaa2337bb67c293f0ef48b6df14e43bf8d09f602ad66853f;
  0x1b717cc99bd6644bfeecef49f35e95e3f4e78d4506f21a1bfcaa2337bb67c293f;
  0x10cf48b6df14e43bf8c09f602ad66853fec26e94f682cf73e6c95d079764720bf;
  0x1d6a3848627ae5cbf54fec8101f9b313f4299a046f1ac4abf255b780f16918d3f;
  0x10ea1cc5194ab63bfb898af73fee578bf63924046a5975c3f2ab5e2757e7e3f3f;
  0x1688db6eeb7ee533f1f6b2e35c3e336bfc2a67acebc344d3fbf579acbbebd903f;
  0x1dc11215c9c4f7c3fba2d2fbb6de893bfcfd1e1bde4fba1bf88dde096c335963f;
  0x1ec3f8e46b5e5703fc207f8e37163853f14cc6376c98f68bf0ea1cc5194ab63bf;
  0x1b798af73fee578bf62924046a5975c3feb3f8e46b5e5703fc207f8e37163853f;
  0x114cc6376c98f68bf1cdcd0ba70a2363f111a23bae6a68e3fbed8f7e2a7ef7d3f;
  0x129b5e2757e7e3f3f678db6eeb7ee533f1a6b2e35c3e336bfe072bb01ba778b3f;
  0x187996df9be9876bfaceaef197f9c45bf662e2cf855f586bfc617e71512e3723f;
  0x1b076e88f3b10423ff9c68cf124abbabf9c1e832360f0b63fbfa501062afd663f;
  0x1b1fde6a31795b13fe7410c3fd8f2923fa8f518435e5277bfc388b61d05554c3f;
  0x1c08ba3c8cb4e37bfd20497a99b4a06bfe072bb01ba778b3f87996df9be9876bf;
  0x1aceaef197f9c45bfc488b61d05554c3fc28ba3c8cb4e37bfd40497a99b4a06bf;
  0x13c62fa4486a9b13f73eb28263ad1923f88a50cac716277bf672e2cf855f586bf;
  0x1c817e71512e3723fb076e88f3b10423f40708c2c97cfa73fd687dcac233490bf;
  0x17d4e72949bd96cbf38eeb553077187bf4eb67bc193e76f3f7c8bca9808674c3f;
  0x1e6d3ae338854a43fdd9aa9a6e8829d3fd317b67faa0e6ebf9ea6520a0793b4bf;
  0x196ee80fa4fd6b13fccf67d405937763f4b5818b5b222a13f986bcff56c5287bf;
  0x1381c3b700fc364bf40708c2c97cfa73fd787dcac233490bf7d4e72949bd96cbf;
  0x14c5818b5b222a13f966bcff56c5287bf381c3b700fc364bf229da03f9241a83f;
  0x13f8da8f9f6d69a3f35413193336871bf38eeb553077187bf4eb67bc193e76f3f;
  0x17d8bca9808674c3f90bd5465c9d9923fb86b2bf6e3a9a3bf53c54e3a5d38853f;
  0x14cfc3ebc8bec8ebff499101f3b23953ffba1d5f5465961bf8fe73b6903dcafbf;
  0x15c8303282f9a90bf809c0dd6e22f9fbf5e00d18dca94a4bff1c4ce755508a6bf;
  0x1cbbe2c1dd5cf9bbfec514ea2c4c29cbf2c24fdabcdcb6fbf21c7f49952d8723f;
  0x18fbd5465c9d9923fb86b2bf6e3a9a3bf55c54e3a5d38853fea514ea2c4c29cbf;
  0x11424fdabcdcb6fbf21c7f49952d8723f3365e546464cbe3f3cf907bf55f7c4bf;
  0x156163a6e7ec79dbf50fc3ebc8bec8ebff699101f3b23953ffca1d5f5465961bf;
  0x117def310bdc9943f45b86ac64a2a983f59652ad72a3884bfac6c6af2fce86ebf;
  0x19572490c41f771bf3032602189105e3fb4f141e0a05390bf6851e8bd62fc52bf;
  0x183076c2a6d238e3fef5e535a8f2890bf90eb8533afb64fbff4f2453c89f98d3f;
  0x18b7ef88108c96e3f9c7ffa57aee4713f92a19c7574f15dbf17def310bdc9943f;
  0x144b86ac64a2a983f5a652ad72a3884bf8b7ef88108c96e3f9c7ffa57aee4713f;
  0x190a19c7574f15dbf7cc51179b2a46e3fd6c65d25c13e963f18e7de3cba10753f;
  0x1ac6c6af2fce86ebf9672490c41f771bf2e32602189105e3ffcf85796477a7fbf;
  0x152daea167659663fcf825ddeefb3413fa0467155994b9cbf51e286960717843f;
  0x1b0a5137587d35f3f34cce9ea591cab3fb751c632cff4983f3dbde9943b3973bf;
  0x1825fb2e668f7a73f165ed87953309b3fda6644a0897471bfae4e44f454e3a4bf;
  0x1e4f2093052a98d3fa8be4360a07e673ff6f85796477a7fbf58daea167659663f;
  0x1cc825ddeefb3413faf4e44f454e3a4bfe2f2093052a98d3fa9be4360a07e673f;
  0x15f93629a26aab6bfb068d002ed18b33f848f1a6c3084753fa1467155994b9cbf;
  0x152e286960717843fb1a5137587d35f3f90f34f851ecaa1bf1474b313c1ba883f;
  0x1ca6a2a9b4acb643fec5216f38799a83fd67f9c44261991bfa071a88e28c16cbf;
  0x165c57c2fc5b09f3f5a5bc5463660a03f648d8c7b202d69bf52a88042c8f2843f;
  0x1f4af6e30fe0fa43f0ca2636c898d59bf0dd32ec99280b03fc8f903b2a5f096bf;
  0x10efefc2d164a73bf90f34f851ecaa1bf1474b313c1ba883fca6a2a9b4acb643f;
  0x10dd32ec99280b03fcaf903b2a5f096bf0ffefc2d164a73bfa117875ce188a0bf;
  0x1eba104e5f8a0ab3fa08592d35258593fed5216f38799a83fd77f9c44261991bf;
  0x1a071a88e28c16cbf2ca423f6c3fe663feec8cfb66903953f1b20074522bb6cbf;
  0x1203d65415d3558bfd003f2213e1f86bf6e21d300353f5e3ff81f181400ea77bf;
  0x1acfb53469dda9dbf0bb08886599d8e3ffc7c30e6e8755cbf1057fe26bb244b3f;
  0x1fc689598bc1e843f7ab494a00d97483fc63ca1268378763f8b44e85943b94ebf;
  0x12ba423f6c3fe663feec8cfb66903953f1d20074522bb6cbf7ab494a00d97483f;
  0x1c63ca1268378763f8844e85943b94ebf81842eb94c2647bfb85e1f517f20813f;
  0x1c3df92489c7b813f203d65415d3558bfd203f2213e1f86bf7021d300353f5e3f;
  0x148a61a65ffed4d3f18bf9add7b0295bf00d30a93767b0fbf2daa3f3840bb10bf;
  0x165343de56a7d573fc0e72db57199d13e88046b6fb2ae1c3f9708364c522184bf;
  0x16a837ee4e486813f92896ab6a229463f77f7b34e151b97bf56c92c635a73813f;
  0x18060122817b616bf2c5c7bfd9ee25f3f8039222ab2e3d73e48a61a65ffed4d3f;
  0x118bf9add7b0295bf00d30a93767b0fbf8060122817b616bf2e5c7bfd9ee25f3f;
  0x18039222ab2e3d73ec992bb4afc4342bf5eb41d541d18753fe540f2e4e09d813f;
  0x12daa3f3840bb10bf66343de56a7d573fc0e72db57199d13e868c4ec393fda3bf;
  0x18ac6057e8822ae3f01e28c17518ba1bff92b949f92e5993f2c59061596a9753f;
  0x1336eae927016663f7065096468a5653fb45d9ad04cc39d3fc144e83483196b3f;
  0x14eba4a4f6d11b53ffe5e09b5148da0bf0b4171a9910ea8bff8e8721e6dbca7bf;
  0x1f8b1e033a0c4793f875e2ed8c214613f878c4ec393fda3bf8bc6057e8822ae3f;
  0x101e28c17518ba1bff8e8721e6dbca7bff9b1e033a0c4793f895e2ed8c214613f;
  0x104facef8f18c98bfc6c25963d9ccb0bfa34c9eee6ad2a2bffa2b949f92e5993f;
  0x12859061596a9753f3e6eae927016663f3d6117e24e8035bf4928412eca3e633f;
  0x1605769fa2d779d3f74edbe1c27cf173ff021766ea44f45bf84d33ccc705080bf;
  0x1ac4b7b1b49094b3f13d7ec828e4d76bf977a913fb761adbfa4ade9bb7979313f;
  0x15467037311b257bf112f37c4c93781bfec5e0663b30006bf9a523c15b6b1333f;
  0x12874836d21276e3f396117e24e8035bf4828412eca3e633f615769fa2d779d3f;
  0x1f05e0663b30006bf9a523c15b6b1333f2874836d21276e3fd5f9626b199a203f;
  0x1d2e7c9e40f183dbfada2bd525eb36f3f74edbe1c27cf173ff021766ea44f45bf;
  0x185d33ccc705080bff21e0868fa0661bf683bcadbebf078bf9492b2d979b45a3f;
  0x104ced6e61ca181bf29a1feaab1d299bfb0321c3d37a67b3fda34cf999f6c88bf;
  0x198b3ac46b6be95bf870f40b71960913f5c9ede059bd73e3f12dd42d2c6e28e3f;
  0x19c65914305af7d3f36a466b7720457bf45ba15038edb70bfb3f8df72c20c523f;
  0x1f31e0868fa0661bf683bcadbebf078bf9492b2d979b45a3f34a466b7720457bf;
  0x144ba15038edb70bfb2f8df72c20c523fa4361f91a18374bfd0af90002bc84fbf;
  0x1148bca5e1ea4873f04ced6e61ca181bf29a1feaab1d299bfae321c3d37a67b3f;
  0x1e6d7fb8ae9b06bbfc71ae9a098c68bbfe6e99e821089693fd94d72a8ff98703f;
  0x152c770e7fea5903f885a4901759c6ebfdee3d0160ec086bf0f4dbdc42f13a0bf;
  0x195c34cd7c85b923f77532f15d72649bf8a4e967a19ac843f92ca8332ff2f813f;
  0x1885d2684b6c6533f6f6247f432d6733f88a91611993c52bfe5d7fb8ae9b06bbf;
  0x1c51ae9a098c68bbfe6e99e821089693f8a5d2684b6c6533f716247f432d6733f;
  0x18aa91611993c52bff1dc5c0238c953bf6212cc8d600e813f168ecdb3c204823f;
  0x1da4d72a8ff98703f52c770e7fea5903f8d5a4901759c6ebfcc0910831198a93f;
  0x168300e053e9c8dbf607fe9944e4973bfde295ec98b0395bfb400d838b94f783f;
  0x1563849c881ab5f3f264dfac3a791993fdeeac21a34a0a03f319532c5c2df60bf;
  0x1e60c2b75b8feaebf5a98e6ccc549ad3feb95ca748f8d783f1e183946d6cfa63f;
  0x1901661b73e648abf49997cfe9a3071bfcd0910831198a93f6c300e053e9c8dbf;
  0x1607fe9944e4973bf1e183946d6cfa63f921661b73e648abf48997cfe9a3071bf;
  0x1587ad50b866a9e3f1c0a257782d99f3f0f2898fad08664bfdf295ec98b0395bf;
  0x1b800d838b94f783f583849c881ab5f3fd3fd9d40aaed74bf75ae1cab66999bbf;
  0x152d55f07762d763f80c4d4635a4834bfc9a0748165bf5abf8d6e1f1e487e353f;
  0x115e9a62fc33279bf84bdfdb6f3d193bfd443392f851b8d3f0e6294e71cee71bf;
  0x1fb7efc5e747884bfda106638aa41893fb37cafbf6e1031bf26b713bbda8056bf;
  0x18ed43c902e15323fd3fd9d40aaed74bf74ae1cab66999bbf51d55f07762d763f;
  0x1b27cafbf6e1031bf25b713bbda8056bf8ad43c902e15323f64f29913cfc818bf;
  0x1976c5ea975cc893f147ec4714aec7f3f7ec4d4635a4834bfc6a0748165bf5abf;
  0x18a6e1f1e487e353f6d6f3de56a2609bfb19b6764a6ee22bf887ea1475401043f;
  0x1964e59b6589fd93eb4eaf984ae49f33e5eef69258561d4bed54d4e5c118d483f;
  0x1910dc021b846903fdb280b2c45ca7c3f7b5d4db3cac491bf4a49bc87bbc4a3bf;
  0x1082d72510ef1953f073abf425ce2623f9efb2097536e7c3f8ac44997d10a5ebf;
  0x16d6f3de56a2609bfb19b6764a6ee22bf887ea1475401043f073abf425ce2623f;
  0x19efb2097536e7c3f8bc44997d10a5ebfa7c8fb681bdf3d3f37dd882433be8e3f;
  0x15df7ea3104bf7d3f964e59b6589fd93eb4eaf984ae49f33e5eef69258561d4be;
  0x114b284fd6c81a9bf11117894a242a03f7e57f7a240a8a23fde586b3247cfa33f;
  0x1e321ff9b529878bfbb4ff473bf3a8ebf331202a3254eb43f4d48e8b0822bbcbf;
  0x143071660c7b29c3f5018ff24819b883fe0c0a9e53a6da8bfbeafa5628f550bbf;
  0x129663027dd5d8cbfcd958cc2483064bf4db74d3a4faa77bf14b284fd6c81a9bf;
  0x112117894a242a03f7d57f7a240a8a23f27663027dd5d8cbfbc958cc2483064bf;
  0x14fb74d3a4faa77bfc90f162b5539bbbf0bbaeb04f6b2abbf171f8e9aa9eb6cbf;
  0x1de586b3247cfa33fe021ff9b529878bfbb4ff473bf3a8ebf8a976100878fc83e;
  0x14d1bbbbe7770e6be1ee744dc9993053f617eabef4ea6ddbe67ad76f1b916fb3e;
  0x146da3d88180c1abfbf3d65ca0a4b1cbf32409e5d74d9393f8d71ecef08db58bf;
  0x1ea62a100574656be845435c0b25c743ef82026d44dc693bebfa9f05e67b9893e;
  0x16690dec79d80a7be550d4d2e4999c63e8a976100878fc83e4d1bbbbe7770e6be;
  0x11fe744dc9993053fbfa9f05e67b9893e6690dec79d80a7be550d4d2e4999c63e;
  0x1f6350499861e9bbebc21f1b112c7b83ec441df4251d6d7be627eabef4ea6ddbe;
  0x168ad76f1b916fb3e47da3d88180c1abf38b413fc52665c3f176fcdd45dce84bf;
  0x1f62835ef04b06fbf31f3c1b3227f533f14d586ae2f917cbf6438ca49f7c065bf;
  0x10a37618d5155653fb5fba60b99ac8ebf7757d99d09c55f3f10fa57337ce3503f;
  0x19ece4537e39377bfa5c740e9d452763fed3b5d46d61f493f5df64581136872bf;
  0x12237269875085cbf38b413fc52665c3f186fcdd45dce84bff52835ef04b06fbf;
  0x1ee3b5d46d61f493f5ef64581136872bf2237269875085cbf208c26911edb3c3f;
  0x1dc146861ddcd62bf07a8b7d18cb87b3f32f3c1b3227f533f16d586ae2f917cbf;
  0x16438ca49f7c065bf4aef0aa2ecc049bf1ba764d31d9f653fb94d320028c29fbf;
  0x1ab1d05798b0c383f9eee3596c03054bf695e7e5d07a88d3f0695223d63d050bf;
  0x1ea656a7e24096c3f8adeb451d67fa5bff8f6e9882fec3dbf80ce5b455cba583f;
  0x158646494c6fa93bf723444992fdd303f6cceb5a705514cbf3d47483dcccb843f;
  0x14cef0aa2ecc049bf1ba764d31d9f653fb84d320028c29fbf733444992fdd303f;
  0x16dceb5a705514cbf3e47483dcccb843ff41a08b65ad8fabeb05968fe3c3d103f;
  0x1be31e834d58364bfad1d05798b0c383f9eee3596c03054bf685e7e5d07a88d3f;
  0x1a403676b62273dbf75f580c28ad469bf2783495338ee413f976f3eb4cddb1c3f;
  0x1601f45d79391493f2abf2e3fbcbf21bf7084a7c8a91f35bfb6db9b0f1be3863f;
  0x14abb2514c67f803f64acbdffde687ebfe1d49548270da4bf774f14dcec31913f;
  0x1384aa1c449e85c3f5bb0e78ba39c893f20c7a7ed69c761bfa403676b62273dbf;
  0x176f580c28ad469bf2783495338ee413f374aa1c449e85c3f59b0e78ba39c893f;
  0x120c7a7ed69c761bfdc42fadbaaf547bf0616ae37b1f3803ff1b488c17487813f;
  0x1966f3eb4cddb1c3f601f45d79391493f26bf2e3fbcbf21bfb15cc57c261d9dbf;
  0x120dad2ac9621823fe9c35f7ec115643f20bf216ac29e9dbf69222d184e72823f;
  0x13c199e8e2b6f643f6c460114e171b7bf49b356ed30beb13f6f8624a729ee7f3f;
  0x18d0d63a4ae42a73f805e7b68cf489b3fd7c4de1af37670bf75fffdcd189c77bf;
  0x15b5c9c0026685d3f6d2997b7ae49403fb05cc57c261d9dbf22dad2ac9621823f;
  0x1e9c35f7ec115643f77fffdcd189c77bf5a5c9c0026685d3f6e2997b7ae49403f;
  0x1cc19e65aa128a73f8f35cad408599b3fb9be451efa6470bf20bf216ac29e9dbf;
  0x168222d184e72823f3e199e8e2b6f643f84dda4eedee6b33f787617e865a59ebf;
  0x1c08ca89c31d572bffcd33479e36587bf3413df0acd03723fdafce2742224463f;
  0x144ad1ff026c4863f290f84d5bdd8a43f70be38db41e962bff25101deb5e7a9bf;
  0x1edb494b95081b03fbcb26b2bfdf9553f24f481ddef3a913fc83d85fb3b887abf;
  0x19552f88dff4d50bf84dda4eedee6b33f787617e865a59ebfc08ca89c31d572bf;
  0x124f481ddef3a913fca3d85fb3b887abf9552f88dff4d50bf3faf2d049273af3f;
  0x102061aec25dc953ff572773ac7a475bffcd33479e36587bf3513df0acd03723f;
  0x1dafce2742224463f]%N.
Definition file_102 : list N := [0x1934e554d5059010076007b276465736372273a205b282773616d706c65272c20;
  0x1273c693427292c202827737472756374757265272c20273c693427292c202827;
  0x161746f6d272c20273c693427295d2c2027666f727472616e5f6f72646572273a;
  0x12046616c73652c20277368617065273a202835392c292c207d2020202020200a;
  0x10000000000000000010000000000000000000000040000000000000000000000;
  0x10500000000000000000000000600000000000000000000000700000000000000;
  0x10000000009000000010000000000000002000000010000000000000004000000;
  0x10100000000000000050000000100000000000000060000000100000000000000;
  0x10700000001000000000000000800000001000000000000000900000002000000;
  0x10000000003000000020000000000000005000000020000000000000006000000;
  0x10200000000000000070000000200000000000000080000000200000000000000;
  0x10900000003000000010000000100000003000000010000000400000003000000;
  0x10100000005000000030000000100000006000000030000000100000007000000;
  0x10300000001000000080000000300000001000000090000000400000001000000;
  0x10200000004000000010000000400000004000000010000000500000004000000;
  0x10100000006000000040000000100000007000000040000000100000008000000;
  0x10400000001000000090000000500000001000000030000000500000001000000;
  0x10500000005000000010000000600000005000000010000000700000005000000;
  0x10100000008000000050000000100000009000000060000000200000001000000;
  0x10600000002000000040000000600000002000000050000000600000002000000;
  0x10600000006000000020000000700000006000000020000000900000007000000;
  0x10200000002000000070000000200000004000000070000000200000005000000;
  0x10700000002000000060000000700000002000000070000000700000002000000;
  0x10800000007000000020000000900000008000000020000000300000008000000;
  0x10200000004000000080000000200000005000000080000000200000006000000;
  0x10800000002000000070000000800000002000000080000000800000002000000;
  0x109000000]%N.
Definition file_103 : list N := [0x1934e554d5059010076007b276465736372273a205b28276772616469656e745f;
  0x1646972656374696f6e272c20273c693427295d2c2027666f727472616e5f6f72;
  0x1646572273a2046616c73652c20277368617065273a2028332c292c207d202020;
  0x1202020202020202020202020202020202020202020202020202020202020200a;
  0x1000000000100000002000000]%N.
Definition file_104 : list N := [0x1934e554d5059010076007b276465736372273a205b282773706865726963616c;
  0x15f6861726d6f6e6963735f6d272c20273c693427295d2c2027666f727472616e;
  0x15f6f72646572273a2046616c73652c20277368617065273a2028332c292c207d;
  0x1202020202020202020202020202020202020202020202020202020202020200a;
  0x1ffffffff0000000001000000]%N.
Definition file_105 : list N := [0x1934e554d5059010076007b276465736372273a20273c6638272c2027666f7274;
  0x172616e5f6f72646572273a2046616c73652c20277368617065273a2028392c20;
  0x1332c2033292c207d202020202020202020202020202020202020202020202020;
  0x1202020202020202020202020202020202020202020202020202020202020200a;
  0x1162d306de792383f49acb3a77e5482bfa097ccd656c883bfce4bf838c192453f;
  0x16fe5e3868161523f9fee5890419a213fa0b88f29ea089dbf52395a30075cafbf;
  0x12b63610f255e93bf43c7f1e85c7da2bfa67c98429682a0bfafb2e70571f9653f;
  0x165e0d2169a6354bf64a3c6a784e258bf005f05949bc4073f4005dc4019f6773f;
  0x11a349cf09fa5973f0e8954edd7b55a3fe966171a374ca23fb96785ecb517a53f;
  0x1e855a52af5937c3ffc74adf47234433fd3f78a830c043a3f5f465a75688b27bf;
  0x150b758d9630b973f461f0c383789a33f9a1a8c90c7b2913fdeff9f4a190564bf;
  0x1fa8815fac57689bf733bba805e3584bf498b13fbd81a55bf60a63ad0ee005cbf;
  0x14dabdba4d937023f714cd2f1810fa0bf8c7a286a1155aebf6ac100a07fa292bf;
  0x198ae0fce47a3a1bf1c80972bf5bb99bf8dada6d7a62a683f928f4fa584a06b3f;
  0x1d6a689e649486b3f820425e2071d2bbf50a83787bd3b6f3fd9e75866f84d953f;
  0x16292194cb175563f95aeb96299e3a23f4d225114ac3ba33f2020a19569557c3f;
  0x1eec9c527181361bf4da7d8fca48f5abfaf19ee78118f263fd7a3bd328c379c3f;
  0x1a006fc3615aea33f44283f8b243b913f1f3e7a85ce7f4c3f0908986a9e5883bf;
  0x1a76b3cc23e4985bfec257eeb04be60bffdab54241b2a6cbfd97a184151c7103f;
  0x1907ce3fcff0c99bfc68009280cebafbf9ff8131494d493bfe822ab64d10ea2bf;
  0x1d1fb51bf3de5a2bfb1c1cbbc82b4613f4cced357379e783f244e566906a27f3f;
  0x1e0f7c6d4c67325bf584657a8b83c813f2ccb99168fce9b3f1ccf5773053a613f;
  0x1f039952ad29ca13fd4fdf75965bba73f3a7b09131edc803f56bb14e2343f70bf;
  0x125f82bd7f88c71bfe67475683c201a3f64d9b7a8a36e903f309bbc9cc403a23f;
  0x1bcfea86553ad913f]%N.
Definition file_106 : list N := [0x1934e554d5059010076007b276465736372273a205b2827737472756374757265;
  0x1272c20273c693427292c20282763656e746572272c20273c693427295d2c2027;
  0x1666f727472616e5f6f72646572273a2046616c73652c20277368617065273a20;
  0x128392c292c207d2020202020202020202020202020202020202020202020200a;
  0x10000000001000000000000000200000000000000030000000100000001000000;
  0x10100000002000000010000000300000002000000010000000200000002000000;
  0x10200000003000000]%N.
Definition file_107 : list N := [0x1934e554d5059010076007b276465736372273a205b282773706865726963616c;
  0x15f6861726d6f6e6963735f6d272c20273c693427295d2c2027666f727472616e;
  0x15f6f72646572273a2046616c73652c20277368617065273a2028332c292c207d;
  0x1202020202020202020202020202020202020202020202020202020202020200a;
  0x1ffffffff0000000001000000]%N.
Definition file_108 : list N := [0x1934e554d5059010076007b276465736372273a205b28276e272c20273c693427;
  0x1295d2c2027666f727472616e5f6f72646572273a2046616c73652c2027736861;
  0x17065273a2028332c292c207d2020202020202020202020202020202020202020;
  0x1202020202020202020202020202020202020202020202020202020202020200a;
  0x1000000000100000002000000]%N.
Definition file_109 : list N := [0x1934e554d5059010076007b276465736372273a20273c6638272c2027666f7274;
  0x172616e5f6f72646572273a2046616c73652c20277368617065273a202832372c;
  0x120332c20332c2033292c207d2020202020202020202020202020202020202020;
  0x1202020202020202020202020202020202020202020202020202020202020200a;
  0x13edc2a20313c553fe9bd2f652b0f943f12b2b88723c35bbfc30aa767198561bf;
  0x11b56a818294c40bf18f7df7e8440403fb7c23376538bb33fced1285370c8863f;
  0x16851f9cd7d9ea0bf50c7ec260c6d93bf30a7a40fc5db9bbf30d0f22477d082bf;
  0x149cfc3b2d51af9be11af8c46fbb022bf167eb8a2dc34f03e3edc2a20313c553f;
  0x1e9bd2f652b0f943f10b2b88723c35bbf49cfc3b2d51af9be11af8c46fbb022bf;
  0x1167eb8a2dc34f03e3d9b4e8c619093bf50c6f3cc4cfda2bf0c312cc0ca4a81bf;
  0x1c40aa767198561bf1b56a818294c40bf19f7df7e8440403f0bdfb49971484fbf;
  0x1d212ec770ce219bf81881142eed92b3f105ed27cef7a613f7a5c452cf8ec2c3f;
  0x1076ebdbd15203fbfce92ddca4c38b3bf146ad2a0af44943fa3370044bb86953f;
  0x184ec751c2c36943fbce9d8ac4c4f9e3f5463f88b957615bfe052493ebe86f63e;
  0x130d1b7dc4da3c23ef4e77e14240ed4be0cdfb49971484fbfd212ec770ce219bf;
  0x181881142eed92b3fe052493ebe86f63e30d1b7dc4da3c23ef4e77e14240ed4be;
  0x1236914ce1a2c943ffbdd711f424e9e3f51752c6ef03813bf115ed27cef7a613f;
  0x1785c452cf8ec2c3f086ebdbd15203fbfe2b2414de15f36bfd6d1b75849f593bf;
  0x1028176bfe547583fd46559a9d553d43ef9fd2d1bd621323fa0022800340ff6be;
  0x14bfa8bd5aac154bffbd266cae7a89fbf5cd6e4af806c873f75a624b1fe2349bf;
  0x16414a2e93c9c63bff7c00a5064fb823f47e3d3a3bba0c43ecccf190f6e66223f;
  0x13288313ba762e6bee0b2414de15f36bfd6d1b75849f593bf008176bfe547583f;
  0x148e3d3a3bba0c43ecccf190f6e66223f3288313ba762e6bec1bcb938287743bf;
  0x194bad6e95db17e3ff78908a13c71813fd76559a9d553d43efafd2d1bd621323f;
  0x1a4022800340ff6be0bdfb49971484fbfd212ec770ce219bf81881142eed92b3f;
  0x1105ed27cef7a613f7a5c452cf8ec2c3f076ebdbd15203fbfce92ddca4c38b3bf;
  0x1146ad2a0af44943fa3370044bb86953f84ec751c2c36943fbce9d8ac4c4f9e3f;
  0x15463f88b957615bfe052493ebe86f63e30d1b7dc4da3c23ef4e77e14240ed4be;
  0x10cdfb49971484fbfd212ec770ce219bf81881142eed92b3fe052493ebe86f63e;
  0x130d1b7dc4da3c23ef4e77e14240ed4be236914ce1a2c943ffbdd711f424e9e3f;
  0x151752c6ef03813bf115ed27cef7a613f785c452cf8ec2c3f086ebdbd15203fbf;
  0x156fb58856d88ad3f75bbae161d317fbff944e3f6078381bf84f7f2289e3e54bf;
  0x1a8beb6d0a07736bfa445db331b79363f1cfe48328065b43f02e6e48bfeacabbf;
  0x1d55dc64bd3a898bf1cf02db47c9ca13faec34e4ea212b2bf47911eb4f50285bf;
  0x1c63e03be9221563f3548105afdbf28bf1c76776dbacf29bf54fb58856d88ad3f;
  0x171bbae161d317fbff944e3f6078381bfc83e03be9221563f3348105afdbf28bf;
  0x11b76776dbacf29bf0825a1a869bbaabfea571513631caebfe9b329fcbc37643f;
  0x187f7f2289e3e54bfa5beb6d0a07736bfa645db331b79363fda27f2be4b0badbf;
  0x1c06b8e48a5987f3fd7feda3da013813f378963a1816e4dbfd62028754902203f;
  0x1c650c413f54d213fd8b4b67636d372bff8b07bbba68aa13f9231313ec010693f;
  0x15ee668c292b7abbf7e1231469efda43f0e8236dfe22d853f1264fcb6ad7b56bf;
  0x1f0689d227075283f5c6d1b8e2b702a3fd827f2be4b0badbfbc6b8e48a5987f3f;
  0x1d7feda3da013813f1364fcb6ad7b56bfee689d227075283f5b6d1b8e2b702a3f;
  0x177f096415ca5a03fd8d1b80684ea9d3f3e50b878f59d63bf368963a1816e4dbf;
  0x1d22028754902203fc550c413f54d213fe2b2414de15f36bfd6d1b75849f593bf;
  0x1028176bfe547583fd46559a9d553d43ef9fd2d1bd621323fa0022800340ff6be;
  0x14bfa8bd5aac154bffbd266cae7a89fbf5cd6e4af806c873f75a624b1fe2349bf;
  0x16414a2e93c9c63bff7c00a5064fb823f47e3d3a3bba0c43ecccf190f6e66223f;
  0x13288313ba762e6bee0b2414de15f36bfd6d1b75849f593bf008176bfe547583f;
  0x148e3d3a3bba0c43ecccf190f6e66223f3288313ba762e6bec1bcb938287743bf;
  0x194bad6e95db17e3ff78908a13c71813fd76559a9d553d43efafd2d1bd621323f;
  0x1a4022800340ff6beda27f2be4b0badbfc06b8e48a5987f3fd7feda3da013813f;
  0x1378963a1816e4dbfd62028754902203fc650c413f54d213fd8b4b67636d372bf;
  0x1f8b07bbba68aa13f9231313ec010693f5ee668c292b7abbf7e1231469efda43f;
  0x10e8236dfe22d853f1264fcb6ad7b56bff0689d227075283f5c6d1b8e2b702a3f;
  0x1d827f2be4b0badbfbc6b8e48a5987f3fd7feda3da013813f1364fcb6ad7b56bf;
  0x1ee689d227075283f5b6d1b8e2b702a3f77f096415ca5a03fd8d1b80684ea9d3f;
  0x13e50b878f59d63bf368963a1816e4dbfd22028754902203fc550c413f54d213f;
  0x140ab8c810b38ad3fcc6d280d401e883ff7cec9f59c1c84bf6bd610f6d9454d3f;
  0x1640ec2d5fa223abfe4a07e271d181dbf6bb3192ca103783fa87784642d636bbf;
  0x1c02271bfb0b08dbff8782dbd221cac3f38f19677dac3a3bf82a1a097a31494bf;
  0x1207a2a595d71563f5e9cdb18ef6d35bfd954681a010a29bf3eab8c810b38ad3f;
  0x1ce6d280d401e883ff7cec9f59c1c84bf217a2a595d71563f5d9cdb18ef6d35bf;
  0x1d854681a010a29bf8409b4a07f57a0bf3e4097c06dcba2bfcfebb4857e1379bf;
  0x16ad610f6d9454d3f630ec2d5fa223abfe1a07e271d181dbf99dde568c90f843f;
  0x1e70829f75741943f06218d5464266abf3ae784a10342703f89677b4617a9233f;
  0x1df52935d6f4c4abf6468dfff5940b43f8463bead17fa703f480a6edcad5b9fbf;
  0x1e237f10e866795bf80d661ba6f659bbfc7820b9be2d581bf5014a1a31bfc383f;
  0x1262f6aad920df23ec691d8e9e84014bf9adde568c90f843fe70829f75741943f;
  0x107218d5464266abf4e14a1a31bfc383f322f6aad920df23ec591d8e9e84014bf;
  0x1f5eecefd254296bf087ec75eebe1a2bf31c886452b3380bf3ae784a10342703f;
  0x189677b4617a9233fdf52935d6f4c4abfd4196f8b89d283bff81a825d44e936bf;
  0x1b52736252506603fe483c4ecf84170bf409571e580ca22bfea663b25e5484a3f;
  0x1cd69fb19620ab4bf17623890d2c69a3f8b8dac6d452c943f691d3cbd6114963f;
  0x1f9e49bde35789e3fa463178160553fbf4e73b79ec2fb38bff02c57f15de0ecbe;
  0x15a1924603132143fd5196f8b89d283bfe81a825d44e936bfb62736252506603f;
  0x14c73b79ec2fb38bf082d57f15de0ecbe591924603132143f52f58f6f17df963f;
  0x15ba00b3e887f9e3fab4b49199ec944bfe483c4ecf84170bf409571e580ca22bf;
  0x1ea663b25e5484a3f90e261bbee9f1ebf7b00b3e5b2e593bfa2f2ad5e7e40543f;
  0x126c9acc6806965be2c493a21ccd2dbbe90a65fbfc2519c3e444bfff1f2fb4abf;
  0x1f8faa77b58059fbf79f982ddd05e863fe0b05cc9759b45bfca73d021319668bf;
  0x1e43d149f8dd0823f227740683a4156be6cc5f4a51debccbe68d7f068136f8d3e;
  0x194e261bbee9f1ebf7b00b3e5b2e593bfa2f2ad5e7e40543f1e7740683a4156be;
  0x16ec5f4a51debccbe60d7f068136f8d3eafcb20382e9e43bfd66e0dfe39117d3f;
  0x1ec5c1b27c57f813f26c9acc6806965be2c493a21ccd2dbbe8ca65fbfc2519c3e;
  0x1d4196f8b89d283bff81a825d44e936bfb52736252506603fe483c4ecf84170bf;
  0x1409571e580ca22bfea663b25e5484a3fcd69fb19620ab4bf17623890d2c69a3f;
  0x18b8dac6d452c943f691d3cbd6114963ff9e49bde35789e3fa463178160553fbf;
  0x14e73b79ec2fb38bff02c57f15de0ecbe5a1924603132143fd5196f8b89d283bf;
  0x1e81a825d44e936bfb62736252506603f4c73b79ec2fb38bf082d57f15de0ecbe;
  0x1591924603132143f52f58f6f17df963f5ba00b3e887f9e3fab4b49199ec944bf;
  0x1e483c4ecf84170bf409571e580ca22bfea663b25e5484a3f928dae76d4b6b23f;
  0x100d330b7186987bf0c2afbb9eeec84bfc851d6c38eae3d3fea26e23a6e194a3f;
  0x10ae4c8ed668d36bfdc998cdec224b73f2667aca23752b0bf23f9a99ab8a397bf;
  0x1ed3c61783fe2983ff8bf9ff44bd9b2bf61cc288419e97dbf56daed554e2c71bf;
  0x192019c89334a4c3fb573aae98eff403f928dae76d4b6b23fffd230b7186987bf;
  0x10c2afbb9eeec84bf57daed554e2c71bf94019c89334a4c3fb773aae98eff403f;
  0x1449e72ea5f10aebfd63d8e9fe7e3adbf62fb32d0f5386d3fc851d6c38eae3d3f;
  0x1e826e23a6e194a3f0ae4c8ed668d36bf58aa4045833cb0bfd8e31cda6220883f;
  0x11fa0ad7065eb803f8f3d0e0120ce6c3f9ac18501ce6645bfcae9ad5c63043ebf;
  0x17880892406d388bf419d3cfd0541a33fbd5ceb6799bb6b3f2badce9a507ba7bf;
  0x1738df1f97c76a63f9b423a8c6fde7f3f8b51d97f0abc723fdea4d611b2d64bbf;
  0x1e0f6ae15d58543bf57aa4045833cb0bfd6e31cda6220883f1fa0ad7065eb803f;
  0x18c51d97f0abc723fe0a4d611b2d64bbfe2f6ae15d58543bf9ba3aa32d4a0a23f;
  0x150db100147489d3f77a8e0498e0668bf8f3d0e0120ce6c3f98c18501ce6645bf;
  0x1cae9ad5c63043ebf90e261bbee9f1ebf7b00b3e5b2e593bfa2f2ad5e7e40543f;
  0x126c9acc6806965be2c493a21ccd2dbbe90a65fbfc2519c3e444bfff1f2fb4abf;
  0x1f8faa77b58059fbf79f982ddd05e863fe0b05cc9759b45bfca73d021319668bf;
  0x1e43d149f8dd0823f227740683a4156be6cc5f4a51debccbe68d7f068136f8d3e;
  0x194e261bbee9f1ebf7b00b3e5b2e593bfa2f2ad5e7e40543f1e7740683a4156be;
  0x16ec5f4a51debccbe60d7f068136f8d3eafcb20382e9e43bfd66e0dfe39117d3f;
  0x1ec5c1b27c57f813f26c9acc6806965be2c493a21ccd2dbbe8ca65fbfc2519c3e;
  0x158aa4045833cb0bfd8e31cda6220883f1fa0ad7065eb803f8f3d0e0120ce6c3f;
  0x19ac18501ce6645bfcae9ad5c63043ebf7880892406d388bf419d3cfd0541a33f;
  0x1bd5ceb6799bb6b3f2badce9a507ba7bf738df1f97c76a63f9b423a8c6fde7f3f;
  0x18b51d97f0abc723fdea4d611b2d64bbfe0f6ae15d58543bf57aa4045833cb0bf;
  0x1d6e31cda6220883f1fa0ad7065eb803f8c51d97f0abc723fe0a4d611b2d64bbf;
  0x1e2f6ae15d58543bf9ba3aa32d4a0a23f50db100147489d3f77a8e0498e0668bf;
  0x18f3d0e0120ce6c3f98c18501ce6645bfcae9ad5c63043ebfd182ef402b44b03f;
  0x13c3a92e205567f3f735e833c757383bfe2768d970ace6cbf2c36c899739e453f;
  0x1e011feeb4efd3d3f2c75a953c5828a3f28fe44fbcdf27dbfa8d07d37b74d8dbf;
  0x1ee1ff471bed1a73f3686d4e719eda4bf99af98b2e25f91bf7bb78aef04bc72bf;
  0x1a3997c2f9df34b3fd3677824fe83433fd082ef402b44b03f403a92e205567f3f;
  0x1735e833c757383bf7cb78aef04bc72bfa5997c2f9df34b3fd5677824fe83433f;
  0x16c20ca795b52a2bf831b4ac04a46a2bf9c65462943fc76bfe2768d970ace6cbf;
  0x12a36c899739e453fe011feeb4efd3d3fc0b6ce57e108203fabd500bb137c953f;
  0x1de196786ce8a5cbfadca816336ad7b3f844329f42051513f87966a2446645bbf;
  0x13befdac36b1ab23f9034ee8598a2913f71feb547965ea1bf728b6092ffff8fbf;
  0x15e2b18c47eb099bf5aab296ecae884bfcecc15c23ddc07bf0e427feaaa0927bf;
  0x15e5743c4933ffa3ebcb6ce57e108203fabd500bb137c953fe2196786ce8a5cbf;
  0x1cecc15c23ddc07bf0f427feaaa0927bf5e5743c4933ffa3ee515eee7c8a58fbf;
  0x1465db76dcbe9a2bfd2aeff417e0283bfafca816336ad7b3f864329f42051513f;
  0x187966a2446645bbf300fec7cf5c5403f5f2741c5dcd21a3f0e5bdfa0bcd620bf;
  0x1695c52eb88b67bbf85fbc37bc22856bf9e27f96741d25b3f3bef4a04e6aab1bf;
  0x193b274bc1c9c883fefc005ef8bad963fa126909d5cf7903fbd2131a0c7d29d3f;
  0x1d8d002638fdc453f134408064437053fa1e8901bd1f6e03e530aa1c87c4ce5be;
  0x1310fec7cf5c5403f5f2741c5dcd21a3f0e5bdfa0bcd620bf134408064437053f;
  0x1a2e8901bd1f6e03e530aa1c87c4ce5be277758a3f36b903f17bdf56fe9b69d3f;
  0x1b03821cb323c4a3f6b5c52eb88b67bbf87fbc37bc22856bf9e27f96741d25b3f;
  0x1e0bcdfd22dc844bfd216c697e69695bf4005831aa6a55e3f947823a10fa5e23e;
  0x104e06a1e865e333fd045a4e3d07efbbe050000e46fe15bbfd98d28e4a6f09dbf;
  0x1e777cc40411f883f001dfc8b9aeb4ebf7bd96370238970bf4d7ef977018b833f;
  0x1d6456ce0cd27d53e8433c6d83dfa253f6aa4e5bfaa32efbee0bcdfd22dc844bf;
  0x1d216c697e69695bf4405831aa6a55e3fd6456ce0cd27d53e8533c6d83dfa253f;
  0x16aa4e5bfaa32efbe8e862dece52143bfeafaf1d65a39803f479b4d15bb5e813f;
  0x1947823a10fa5e23e04e06a1e865e333fce45a4e3d07efbbe300fec7cf5c5403f;
  0x15f2741c5dcd21a3f0e5bdfa0bcd620bf695c52eb88b67bbf85fbc37bc22856bf;
  0x19e27f96741d25b3f3bef4a04e6aab1bf93b274bc1c9c883fefc005ef8bad963f;
  0x1a126909d5cf7903fbd2131a0c7d29d3fd8d002638fdc453f134408064437053f;
  0x1a1e8901bd1f6e03e530aa1c87c4ce5be310fec7cf5c5403f5f2741c5dcd21a3f;
  0x10e5bdfa0bcd620bf134408064437053fa2e8901bd1f6e03e530aa1c87c4ce5be;
  0x1277758a3f36b903f17bdf56fe9b69d3fb03821cb323c4a3f6b5c52eb88b67bbf;
  0x187fbc37bc22856bf9e27f96741d25b3faf8c909e30efa63fa3cdb67292176dbf;
  0x134643792f2647ebf34a97f6935cb5a3fa66ee253ec8e5c3f80c4cfc564a14bbf;
  0x10e14af75c01bb03f45da79466534a6bfd4ba463818b198bfe0ddf90b4806a83f;
  0x189ea5d9d86d6b0bf46df44a879238dbf8bbf20f44a6685bfedbbbf2b01b3493f;
  0x1549a2555d0945c3faf8c909e30efa63fabcdb67292176dbf34643792f2647ebf;
  0x18cbf20f44a6685bfe5bbbf2b01b3493f559a2555d0945c3f124295cdd528a6bf;
  0x1c8db68e5c115aebf7e4bfa96a2d0483f38a97f6935cb5a3fa96ee253ec8e5c3f;
  0x180c4cfc564a14bbfec3c84744832a7bf68c48c8cfb406c3f0c5f3e77a8eb7e3f;
  0x11c72f290bb03753f84cc7960a79839bfbc8a220a1e034cbfd4b2bde958f2783f;
  0x1a0ad5c175e0da03f27cf074a621c603f98f8602dfb40b0bf3344a36aa9c3a23f;
  0x138b214b2b0c58b3f47b71ab01351853f90ff2d70dcf649bf3f58945b376a5cbf;
  0x1ec3c84744832a7bf70c48c8cfb406c3f0c5f3e77a8eb7e3f48b71ab01351853f;
  0x188ff2d70dcf649bf4058945b376a5cbffc0cd2f7b7e59b3f7afadb5a9a749e3f;
  0x117c20db16a8659bf1d72f290bb03753f88cc7960a79839bfbc8a220a1e034cbf;
  0x1e0bcdfd22dc844bfd216c697e69695bf4005831aa6a55e3f947823a10fa5e23e;
  0x104e06a1e865e333fd045a4e3d07efbbe050000e46fe15bbfd98d28e4a6f09dbf;
  0x1e777cc40411f883f001dfc8b9aeb4ebf7bd96370238970bf4d7ef977018b833f;
  0x1d6456ce0cd27d53e8433c6d83dfa253f6aa4e5bfaa32efbee0bcdfd22dc844bf;
  0x1d216c697e69695bf4405831aa6a55e3fd6456ce0cd27d53e8533c6d83dfa253f;
  0x16aa4e5bfaa32efbe8e862dece52143bfeafaf1d65a39803f479b4d15bb5e813f;
  0x1947823a10fa5e23e04e06a1e865e333fce45a4e3d07efbbeec3c84744832a7bf;
  0x168c48c8cfb406c3f0c5f3e77a8eb7e3f1c72f290bb03753f84cc7960a79839bf;
  0x1bc8a220a1e034cbfd4b2bde958f2783fa0ad5c175e0da03f27cf074a621c603f;
  0x198f8602dfb40b0bf3344a36aa9c3a23f38b214b2b0c58b3f47b71ab01351853f;
  0x190ff2d70dcf649bf3f58945b376a5cbfec3c84744832a7bf70c48c8cfb406c3f;
  0x10c5f3e77a8eb7e3f48b71ab01351853f88ff2d70dcf649bf4058945b376a5cbf;
  0x1fc0cd2f7b7e59b3f7afadb5a9a749e3f17c20db16a8659bf1d72f290bb03753f;
  0x188cc7960a79839bfbc8a220a1e034cbfe0bbcf2b6985a73f457e3426c70e923f;
  0x12e90effe884a83bfd803c3180e0d75bf00b23b0885e8183feaac3f9114df4c3f;
  0x1d3b2bdf0fcf971bf386b8654aa5061bfb16b4ed359268cbfd2f07862d27eb03f;
  0x104c996fc84b2a0bf4218071559a897bfd0c4d6a9b85385bfaf72fcf94c78443f;
  0x1882314b19ca85c3fe0bbcf2b6985a73f447e3426c70e923f2e90effe884a83bf;
  0x1d1c4d6a9b85385bfa772fcf94c78443f892314b19ca85c3fc8a070c8a84c9bbf;
  0x1f87b2ae3a348a3bf08c6577edb5b7cbfd903c3180e0d75bf10b23b0885e8183f;
  0x1eaac3f9114df4c3f]%N.
Definition file_110 : list N := [0x1934e554d5059010076007b276465736372273a205b282773616d706c65272c20;
  0x1273c693427292c202827737472756374757265272c20273c693427292c202827;
  0x161746f6d272c20273c693427295d2c2027666f727472616e5f6f72646572273a;
  0x12046616c73652c20277368617065273a202832372c292c207d2020202020200a;
  0x10000000000000000010000000000000000000000020000000000000000000000;
  0x10300000001000000000000000100000001000000000000000200000001000000;
  0x10000000003000000020000000000000001000000020000000000000002000000;
  0x10200000000000000030000000300000001000000010000000300000001000000;
  0x10200000003000000010000000300000004000000010000000100000004000000;
  0x10100000002000000040000000100000003000000050000000100000001000000;
  0x10500000001000000020000000500000001000000030000000600000002000000;
  0x10100000006000000020000000200000006000000020000000300000007000000;
  0x10200000001000000070000000200000002000000070000000200000003000000;
  0x10800000002000000010000000800000002000000020000000800000002000000;
  0x103000000]%N.
Definition file_111 : list N := [0x1934e554d5059010076007b276465736372273a205b28276772616469656e745f;
  0x1646972656374696f6e272c20273c693427295d2c2027666f727472616e5f6f72;
  0x1646572273a2046616c73652c20277368617065273a2028332c292c207d202020;
  0x1202020202020202020202020202020202020202020202020202020202020200a;
  0x1000000000100000002000000]%N.
Definition file_112 : list N := [0x1934e554d5059010076007b276465736372273a205b282773706865726963616c;
  0x15f6861726d6f6e6963735f6d272c20273c693427295d2c2027666f727472616e;
  0x15f6f72646572273a2046616c73652c20277368617065273a2028332c292c207d;
  0x1202020202020202020202020202020202020202020202020202020202020200a;
  0x1ffffffff0000000001000000]%N.
Definition file_113 : list N := [0x1934e554d5059010076007b276465736372273a20273c6638272c2027666f7274;
  0x172616e5f6f72646572273a2046616c73652c20277368617065273a2028392c20;
  0x1332c2033292c207d202020202020202020202020202020202020202020202020;
  0x1202020202020202020202020202020202020202020202020202020202020200a;
  0x10f33bfbbdffba1bf5caae606419fa3bfefc6663bd96b603f24ae52ee59f24b3f;
  0x156509ec60f7e4e3f908652c2b78409bfdf33842666428e3f0208f8340582903f;
  0x1493032bc52a14bbf940bd53760e5443f6620db079dba88bf85bf1931adae85bf;
  0x1e167858bd830b53e841d6c4aed13f9bee3114c8efcfcf5bed3bb0f653ec650bf;
  0x14454b226f0d9933f22ebdbccd667913f03c15f83b728103f19f2326453273fbf;
  0x1503a32e94d7b55bf89cfa41c9564d9beb64908935a7a083f79140174e6e0203f;
  0x1413f4c72692152bff9103d3b2c7a813fd777ec7d3d1a983f195834562060a0bf;
  0x18de0d0aebb69a4bf63339c38b1c3543fe628fd1ef9ae67bfa60a7faeda856dbf;
  0x1c1b410c2f5071e3f89d8d9adfacd893fdbf288275f15903f1ea75a33405c40bf;
  0x159f0d5b2e9ba343f52bde8b3d3668cbfd5269a11df9483bf6c2e72148d9cf13e;
  0x1b0e36688042148bfd702f59ebea240bf5c74ce213c2641bf4f3404a4ea7e973f;
  0x1c3729de6fb32903f7fa0dfc66129123f916b7c604e9241bfc539a72d9fce57bf;
  0x14206aa3b4689093fa7e1b698dab438bf66794bb9adbc50bfabacbd5e685952bf;
  0x187080f79c5c0813f1ee9d87d930d983f102c08481f84a2bf5079eb2c2763a4bf;
  0x11dc7a4156f9b603fa7a9860f3d9070bf6d98a071c03c72bf3dc58d322cb62d3f;
  0x1ac7fe444b470853f0b2816c2629b873ff124350ad73a43bfa9d67ca12acd413f;
  0x125b90569cd058dbfc0878e5f7a8986bf53bb2614a4cce63e803c6b7fe69532bf;
  0x1684cad7852dd2cbfbec00d13019e49bf34926392f0e1943fc67d68d74a37903f;
  0x1b45fae4728a4113f01993edca83548bf20127362b99f4fbfa6b3ab3cb9271a3f;
  0x1215445495ff251bf9ce38c016c7157bf880006ea96f758bf0b0b379eaf21913f;
  0x1062cdb11d360963f]%N.
Definition file_114 : list N := [0x1934e554d5059010076007b276465736372273a205b2827737472756374757265;
  0x1272c20273c693427292c20282763656e746572272c20273c693427295d2c2027;
  0x1666f727472616e5f6f72646572273a2046616c73652c20277368617065273a20;
  0x128392c292c207d2020202020202020202020202020202020202020202020200a;
  0x10000000001000000000000000200000000000000030000000100000001000000;
  0x10100000002000000010000000300000002000000010000000200000002000000;
  0x10200000003000000]%N.
Definition file_115 : list N := [0x1934e554d5059010076007b276465736372273a205b282773706865726963616c;
  0x15f6861726d6f6e6963735f6d272c20273c693427295d2c2027666f727472616e;
  0x15f6f72646572273a2046616c73652c20277368617065273a2028332c292c207d;
  0x1202020202020202020202020202020202020202020202020202020202020200a;
  0x1ffffffff0000000001000000]%N.
Definition file_116 : list N := [0x1934e554d5059010076007b276465736372273a205b28276e272c20273c693427;
  0x1295d2c2027666f727472616e5f6f72646572273a2046616c73652c2027736861;
  0x17065273a2028332c292c207d2020202020202020202020202020202020202020;
  0x1202020202020202020202020202020202020202020202020202020202020200a;
  0x1000000000100000002000000]%N.
Definition file_117 : list N := [0x1934e554d5059010076007b276465736372273a20273c6638272c2027666f7274;
  0x172616e5f6f72646572273a2046616c73652c20277368617065273a202831382c;
  0x120332c20332c2033292c207d2020202020202020202020202020202020202020;
  0x1202020202020202020202020202020202020202020202020202020202020200a;
  0x163639ad688a5a43fec34dcc751bb62bff7f6e2cc498e7cbf975c9a20d20a50bf;
  0x11040c9cfda1b0d3f4fcc59120a30263ffc3c496b6d10853f07417322b26d9f3f;
  0x15132560cea91563f2f271514ec90b1bfdf981b674501a23fb1b0d68315c28e3f;
  0x1789770509111633f806e72b0d14c21bf6807c36b925f3abf63639ad688a5a43f;
  0x1ec34dcc751bb62bff8f6e2cc498e7cbf789770509111633f886e72b0d14c21bf;
  0x16a07c36b925f3abf006f317c12d89b3fb8a71a0865729e3ff5518163445159bf;
  0x1975c9a20d20a50bf1840c9cfda1b0d3f51cc59120a30263f63639ad688a5a4bf;
  0x1ec34dcc751bb623ff7f6e2cc498e7c3f975c9a20d20a503f1040c9cfda1b0dbf;
  0x14fcc59120a3026bffc3c496b6d1085bf07417322b26d9fbf5132560cea9156bf;
  0x12f271514ec90b13fdf981b674501a2bfb1b0d68315c28ebf78977050911163bf;
  0x1806e72b0d14c213f6807c36b925f3a3f63639ad688a5a4bfec34dcc751bb623f;
  0x1f8f6e2cc498e7c3f78977050911163bf886e72b0d14c213f6a07c36b925f3a3f;
  0x1006f317c12d89bbfb8a71a0865729ebff55181634451593f975c9a20d20a503f;
  0x11840c9cfda1b0dbf51cc59120a3026bf20a300e8007a5d3f4e784bd7dabb973f;
  0x1713f8d2f84b068bf7ed0a6c976e4cd3ee68e7efd9211083f4bba70faaf09d9be;
  0x184d8175a5dc36bbf4bf0bf1936669cbff1806c2efded8a3fe5191e05978f5abf;
  0x1810f7773e64e74bf196cdb4543dd843fa2ad3aa35e9ec2bee16a197686fbfdbe;
  0x1c463c11c9a30cf3e20a300e8007a5d3f50784bd7dabb973f733f8d2f84b068bf;
  0x1a1ad3aa35e9ec2bedf6a197686fbfdbebc63c11c9a30cf3e0153c698186740bf;
  0x1ad931d9f4369833f7de718981305813f7dd0a6c976e4cd3ee68e7efd9211083f;
  0x147ba70faaf09d9be20a300e8007a5dbf4e784bd7dabb97bf713f8d2f84b0683f;
  0x17ed0a6c976e4cdbee68e7efd921108bf4bba70faaf09d93e84d8175a5dc36b3f;
  0x14bf0bf1936669c3ff1806c2efded8abfe5191e05978f5a3f810f7773e64e743f;
  0x1196cdb4543dd84bfa2ad3aa35e9ec23ee16a197686fbfd3ec463c11c9a30cfbe;
  0x120a300e8007a5dbf50784bd7dabb97bf733f8d2f84b0683fa1ad3aa35e9ec23e;
  0x1df6a197686fbfd3ebc63c11c9a30cfbe0153c6981867403fad931d9f436983bf;
  0x17de71898130581bf7dd0a6c976e4cdbee68e7efd921108bf47ba70faaf09d93e;
  0x141187cda5f5a2bbfb8c595b76856603f921d68036a3a303fb0465a8ae37df53e;
  0x1a9018a8262ac29bf4ec9cf7f6480f9be86be6f09456d6b3f6ecb28ec04c2a0bf;
  0x1341e2bfa857f703f463b0d3b565839bf546a554c9341683f5e5476fe2953813f;
  0x114fd99b4a027b3be1fff4785b8e1e63e33e2981c83bab63e40187cda5f5a2bbf;
  0x1b8c595b76856603f921d68036a3a303f14fd99b4a027b3be1fff4785b8e1e63e;
  0x135e2981c83bab63e4aad0a427c193abff2e7f3fa4d28693f01b80479535a813f;
  0x1b0465a8ae37df53ea9018a8262ac29bf4ec9cf7f6480f9be41187cda5f5a2b3f;
  0x1b8c595b7685660bf921d68036a3a30bfb0465a8ae37df5bea9018a8262ac293f;
  0x14ec9cf7f6480f93e86be6f09456d6bbf6ecb28ec04c2a03f341e2bfa857f70bf;
  0x1463b0d3b5658393f546a554c934168bf5e5476fe295381bf14fd99b4a027b33e;
  0x11fff4785b8e1e6be33e2981c83bab6be40187cda5f5a2b3fb8c595b7685660bf;
  0x1921d68036a3a30bf14fd99b4a027b33e1fff4785b8e1e6be35e2981c83bab6be;
  0x14aad0a427c193a3ff2e7f3fa4d2869bf01b80479535a81bfb0465a8ae37df5be;
  0x1a9018a8262ac293f4ec9cf7f6480f93e9c188f76fd41a23f80b2575f53b3293f;
  0x194456acb22217cbf897a739de1676a3f2084bdf4c295f23e424ba9906a5744bf;
  0x1933e6f26fa37843f2e9f3b5679749e3f28f24aecf3cb5c3f9474ad46870cb1bf;
  0x1346dfc823f069e3fe067272255e1903f8a56e2bbcac180bf001a42af829607bf;
  0x1b208165c35d1593f9c188f76fd41a23f40b2575f53b3293f94456acb22217cbf;
  0x18856e2bbcac180bf001a42af829607bfb208165c35d1593fc95baf16c2bc973f;
  0x1527c824aa8879e3fa05ab05e71644abf887a739de1676a3f2084bdf4c295f23e;
  0x1424ba9906a5744bf9c188f76fd41a2bf80b2575f53b329bf94456acb22217c3f;
  0x1897a739de1676abf2084bdf4c295f2be424ba9906a57443f933e6f26fa3784bf;
  0x12e9f3b5679749ebf28f24aecf3cb5cbf9474ad46870cb13f346dfc823f069ebf;
  0x1e067272255e190bf8a56e2bbcac1803f001a42af8296073fb208165c35d159bf;
  0x19c188f76fd41a2bf40b2575f53b329bf94456acb22217c3f8856e2bbcac1803f;
  0x1001a42af8296073fb208165c35d159bfc95baf16c2bc97bf527c824aa8879ebf;
  0x1a05ab05e71644a3f887a739de1676abf2084bdf4c295f2be424ba9906a57443f;
  0x145ad9eac5a146d3f6382da611577983f5aab5fda726c71bf74e0059970b4283f;
  0x1fee5dc93e0c8543fe4ca3dc8da9a2dbfd9e93ef0792379bfa8dd892d599e9cbf;
  0x1db42359c83c48e3fc5b7a3b960bd63bf40624a95226a67bf6c8340657a9e853f;
  0x1485a7d7dfadc1dbf6579346bdf1f49bf78cd8c37a8e4213f43ad9eac5a146d3f;
  0x16282da611577983f59ab5fda726c71bf4c5a7d7dfadc1dbf6779346bdf1f49bf;
  0x17ccd8c37a8e4213fa8f7c5a095b531bf45c4f6b2eea2873f3111bae6545e803f;
  0x175e0059970b4283fffe5dc93e0c8543fe8ca3dc8da9a2dbf45ad9eac5a146dbf;
  0x16382da61157798bf5aab5fda726c713f74e0059970b428bffee5dc93e0c854bf;
  0x1e4ca3dc8da9a2d3fd9e93ef07923793fa8dd892d599e9c3fdb42359c83c48ebf;
  0x1c5b7a3b960bd633f40624a95226a673f6c8340657a9e85bf485a7d7dfadc1d3f;
  0x16579346bdf1f493f78cd8c37a8e421bf43ad9eac5a146dbf6282da61157798bf;
  0x159ab5fda726c713f4c5a7d7dfadc1d3f6779346bdf1f493f7ccd8c37a8e421bf;
  0x1a8f7c5a095b5313f45c4f6b2eea287bf3111bae6545e80bf75e0059970b428bf;
  0x1ffe5dc93e0c854bfe8ca3dc8da9a2d3f6dcd70e62d062ebf660bbaf3d134623f;
  0x1ac02c608867d313f23a2b8ce951b25bf82a691665b99593f1cfb95eaa197283f;
  0x102b8c015a2056b3fdfa79329c5caa0bfc4aaf8d06010713fd82cc855c99139bf;
  0x10cab4760c782683ffddf429f6b55813fd45cfaec56e4e43e80024f345b5619bf;
  0x139bc26444457e8be6ccd70e62d062ebf670bbaf3d134623fac02c608867d313f;
  0x1d45cfaec56e4e43e80024f345b5619bf3fbc26444457e8be12cd5fed050a3abf;
  0x1c97d0d729914693f3511264fcc59813f22a2b8ce951b25bf81a691665b99593f;
  0x123fb95eaa197283f6dcd70e62d062e3f660bbaf3d13462bfac02c608867d31bf;
  0x123a2b8ce951b253f82a691665b9959bf1cfb95eaa19728bf02b8c015a2056bbf;
  0x1dfa79329c5caa03fc4aaf8d0601071bfd82cc855c991393f0cab4760c78268bf;
  0x1fddf429f6b5581bfd45cfaec56e4e4be80024f345b56193f39bc26444457e83e;
  0x16ccd70e62d062e3f670bbaf3d13462bfac02c608867d31bfd45cfaec56e4e4be;
  0x180024f345b56193f3fbc26444457e83e12cd5fed050a3a3fc97d0d72991469bf;
  0x13511264fcc5981bf22a2b8ce951b253f81a691665b9959bf23fb95eaa19728bf;
  0x10ff42cd91e629e3f28683bf1239b59bfc9658021132b75bf70fe300edb2d6b3f;
  0x1d806e23cd9e726bf08c29f1097ef42bff6e95148addd923f5f9153c285eb9e3f;
  0x1406237582917f3be3ef57866f852b3bf1eaf47bb19fea13f105dc25e09bb903f;
  0x10bc931f1e67887bf3ce5d4281ac8433f67afd171725a603f0ef42cd91e629e3f;
  0x128683bf1239b59bfc9658021132b75bf0cc931f1e67887bf40e5d4281ac8433f;
  0x167afd171725a603fc230386058599a3fe474a8609e869e3fd8a101f4002755bf;
  0x170fe300edb2d6b3fd806e23cd9e726bf08c29f1097ef42bf0ff42cd91e629ebf;
  0x128683bf1239b593fc9658021132b753f70fe300edb2d6bbfd806e23cd9e7263f;
  0x108c29f1097ef423ff6e95148addd92bf5f9153c285eb9ebf406237582917f33e;
  0x13ef57866f852b33f1eaf47bb19fea1bf105dc25e09bb90bf0bc931f1e678873f;
  0x13ce5d4281ac843bf67afd171725a60bf0ef42cd91e629ebf28683bf1239b593f;
  0x1c9658021132b753f0cc931f1e678873f40e5d4281ac843bf67afd171725a60bf;
  0x1c230386058599abfe474a8609e869ebfd8a101f40027553f70fe300edb2d6bbf;
  0x1d806e23cd9e7263f08c29f1097ef423f8533f5b1cca4663ff755124c4a68993f;
  0x12175daf278676fbf6a6c968650000d3f45275d703845403f412ca639521c14bf;
  0x186f7c7da84f171bf30cc461146cc99bfe755f65827048c3f7e670e24570963bf;
  0x1ab40ea3362907bbffbd1bed6812c863ff558ccb52a2704bf9f7ed3d9d59c36bf;
  0x19fe621cd26f30b3f8733f5b1cca4663ff955124c4a68993f2775daf278676fbf;
  0x1f558ccb52a2704bf9e7ed3d9d59c36bf99e621cd26f30b3f81bee670fe753abf;
  0x156a4b686de83853fb3f6a60168b8803f6c6c968650000d3f46275d703845403f;
  0x13f2ca639521c14bf8533f5b1cca466bff755124c4a6899bf2175daf278676f3f;
  0x16a6c968650000dbf45275d70384540bf412ca639521c143f86f7c7da84f1713f;
  0x130cc461146cc993fe755f65827048cbf7e670e245709633fab40ea3362907b3f;
  0x1fbd1bed6812c86bff558ccb52a27043f9f7ed3d9d59c363f9fe621cd26f30bbf;
  0x18733f5b1cca466bff955124c4a6899bf2775daf278676f3ff558ccb52a27043f;
  0x19e7ed3d9d59c363f99e621cd26f30bbf81bee670fe753a3f56a4b686de8385bf;
  0x1b3f6a60168b880bf6c6c968650000dbf46275d70384540bf3f2ca639521c143f;
  0x1397d242db06ff3bed8fbd202eaa6603f705c3a47a87918bf90ffdbef07d1fcbe;
  0x17745dae442b0683f28a09a89c72422bfcbd6c3bca95827bfe4b013b6e034a4bf;
  0x1d9afc42d8ee3853f49e3b03d469043bf66d5ad6d4d847a3f0adaa6244491813f;
  0x16bfc44e1725cb43ed58d2d26c27121bfc87e1793cca3d93e387d242db06ff3be;
  0x1d8fbd202eaa6603f705c3a47a87918bf6bfc44e1725cb43ed68d2d26c27121bf;
  0x1d07e1793cca3d93ede45bd110c8843bf86109b1286137a3ff7fbd531db93813f;
  0x190ffdbef07d1fcbe7745dae442b0683f28a09a89c72422bf397d242db06ff33e;
  0x1d8fbd202eaa660bf705c3a47a879183f90ffdbef07d1fc3e7745dae442b068bf;
  0x128a09a89c724223fcbd6c3bca958273fe4b013b6e034a43fd9afc42d8ee385bf;
  0x149e3b03d4690433f66d5ad6d4d847abf0adaa624449181bf6bfc44e1725cb4be;
  0x1d58d2d26c271213fc87e1793cca3d9be387d242db06ff33ed8fbd202eaa660bf;
  0x1705c3a47a879183f6bfc44e1725cb4bed68d2d26c271213fd07e1793cca3d9be;
  0x1de45bd110c88433f86109b1286137abff7fbd531db9381bf90ffdbef07d1fc3e;
  0x17745dae442b068bf28a09a89c724223f]%N.
Definition file_118 : list N := [0x1934e554d5059010076007b276465736372273a205b282773616d706c65272c20;
  0x1273c693427292c202827737472756374757265272c20273c693427292c202827;
  0x161746f6d272c20273c693427295d2c2027666f727472616e5f6f72646572273a;
  0x12046616c73652c20277368617065273a202831382c292c207d2020202020200a;
  0x10000000000000000000000000000000000000000010000000100000000000000;
  0x10000000001000000000000000200000002000000000000000000000002000000;
  0x10000000003000000030000000100000000000000030000000100000001000000;
  0x10400000001000000000000000400000001000000020000000500000001000000;
  0x10000000005000000010000000300000006000000020000000000000006000000;
  0x10200000001000000070000000200000000000000070000000200000002000000;
  0x1080000000200000000000000080000000200000003000000]%N.
Definition file_119 : list N := [0x1934e554d5059010076007b276465736372273a205b28276772616469656e745f;
  0x1646972656374696f6e272c20273c693427295d2c2027666f727472616e5f6f72;
  0x1646572273a2046616c73652c20277368617065273a2028332c292c207d202020;
  0x1202020202020202020202020202020202020202020202020202020202020200a;
  0x1000000000100000002000000]%N.
Definition file_120 : list N := [0x1934e554d5059010076007b276465736372273a205b282773706865726963616c;
  0x15f6861726d6f6e6963735f6d272c20273c693427295d2c2027666f727472616e;
  0x15f6f72646572273a2046616c73652c20277368617065273a2028332c292c207d;
  0x1202020202020202020202020202020202020202020202020202020202020200a;
  0x1ffffffff0000000001000000]%N.
Definition file_121 : list N := [0x1934e554d5059010076007b276465736372273a20273c6638272c2027666f7274;
  0x172616e5f6f72646572273a2046616c73652c20277368617065273a2028332c20;
  0x1332c2033292c207d202020202020202020202020202020202020202020202020;
  0x1202020202020202020202020202020202020202020202020202020202020200a;
  0x1d35bbccc196a903fe512beba8584ae3f4ced671b285e933f385ff8ba0fa74dbf;
  0x13d408b3a6b6d5abf76ac3269a80b42bff7344a6a8f67b43f289a7f8392a491bf;
  0x12e35246e64ec9cbfb225c62dc778843f17351b0fc0ecae3faa5c255d140e943f;
  0x13bcb1d32e52ba03f76f3569b4a949d3fb0f3fc43343a633f2a01e8f72f27a83f;
  0x12505cb9557ef763fe1475c96b5b69ebf75f23acc9fe57a3f627465b88ab3aa3f;
  0x1ef8a13a44f55933f0cc697a8db929f3f347697ff22e5953fb7d97aea1046653f;
  0x1492f38f0fc52b13f46c3384d039893bf62a6a9b674b295bf]%N.
Definition file_122 : list N := [0x1934e554d5059010076007b276465736372273a205b2827737472756374757265;
  0x1272c20273c693427292c20282763656e746572272c20273c693427295d2c2027;
  0x1666f727472616e5f6f72646572273a2046616c73652c20277368617065273a20;
  0x128332c292c207d2020202020202020202020202020202020202020202020200a;
  0x1000000000000000001000000000000000200000000000000]%N.
Definition file_123 : list N := [0x1934e554d5059010076007b276465736372273a205b282773706865726963616c;
  0x15f6861726d6f6e6963735f6d272c20273c693427295d2c2027666f727472616e;
  0x15f6f72646572273a2046616c73652c20277368617065273a2028332c292c207d;
  0x1202020202020202020202020202020202020202020202020202020202020200a;
  0x1ffffffff0000000001000000]%N.
Definition file_124 : list N := [0x1934e554d5059010076007b276465736372273a205b28276e272c20273c693427;
  0x1295d2c2027666f727472616e5f6f72646572273a2046616c73652c2027736861;
  0x17065273a2028332c292c207d2020202020202020202020202020202020202020;
  0x1202020202020202020202020202020202020202020202020202020202020200a;
  0x1000000000100000002000000]%N.
Definition file_125 : list N := [0x1934e554d5059010076007b276465736372273a20273c6638272c2027666f7274;
  0x172616e5f6f72646572273a2046616c73652c20277368617065273a202831382c;
  0x120332c20332c2033292c207d2020202020202020202020202020202020202020;
  0x1202020202020202020202020202020202020202020202020202020202020200a;
  0x166c2fd100db0943f08e6d20cb99b653fa57edae126ec99bfe83dd725b5545bbf;
  0x1be8249d759dc613f955e0d7e3ed043bf8a8ea01bd816bb3fc0e500925e7db9bf;
  0x1ebfda5a838ff61bf9f27e86ff589a4bf8da09a631106a03f97ba4bc918e896bf;
  0x1b37f5663bf3e49bfccb48a605ca40f3f526f6956136c443f66c2fd100db0943f;
  0x108e6d20cb99b653fa47edae126ec99bf937f5663bf3e49bfe2b68a605ca40f3f;
  0x13a6f6956136c443f3cedc362b38bb3bfdc9beafa31c8a4bf9fffefb98cdc95bf;
  0x1ea3dd725b5545bbfbe8249d759dc613f935e0d7e3ed043bf16bf7d01883e97bf;
  0x10805db1f9540853f421c312faa6d473f672177f8c7225d3f4861cd0e94a34abf;
  0x157a1f87fdc5d0dbf24ca16d5cbe4b9bfe388d34786b1b83f26152cb329a13ebf;
  0x1afcac1e93246b43f19c6e980acb38c3f0b7492f3602e79bfa045583336e32c3f;
  0x1ded1eeea74691abf1f8fbed3c91dddbe16bf7d01883e97bf0805db1f9540853f;
  0x1411c312faa6d473fa045583336e32c3fe1d1eeea74691abf1c8fbed3c91dddbe;
  0x12bf377c46ffdb43f7b80f71189158a3f591f9928b98a79bf682177f8c7225d3f;
  0x14b61cd0e94a34abf56a1f87fdc5d0dbf05e6374c71995e3f767fdddc916c713f;
  0x1323972859f0b55bf8df5d3e6ff6f4b3ffc85a4924d3f5f3f8793422ee9de42bf;
  0x13cc55ceb2650553f5ffc62b4afce913f4587d9bcbb167b3f65af3de644c192bf;
  0x1238e669ce9f19bbfa8de82276696943f36c8a3bd572c82bf7ad007a055b294bf;
  0x1616715c080ff783f05e6374c71995e3f757fdddc916c713f313972859f0b55bf;
  0x136c8a3bd572c82bf7ad007a055b294bf606715c080ff783fa7cdb2f48d7d64bf;
  0x16b63b7e6f9e0813f1e08e87560e6823f8df5d3e6ff6f4b3ffd85a4924d3f5f3f;
  0x18593422ee9de42bf78964e65d75c5b3f1d5ecbe97acf6d3f868f0d93606352bf;
  0x177173ea2fb9349bf9e985c87c0dd5bbf84fc1f3c5c30413f07d787771641583f;
  0x161c34044933b923f586bb7362e947a3f10639f8fa62d93bf0f518042b5db9abf;
  0x127792da8348d943f110b47b1ca79833f5906037bcf37953f4298d195142d7abf;
  0x179964e65d75c5b3f1d5ecbe97acf6d3f888f0d93606352bf0f0b47b1ca79833f;
  0x15806037bcf37953f3e98d195142d7abffed13527332967bf8fa2a565353e813f;
  0x136f48e93cc37833f74173ea2fb9349bf9e985c87c0dd5bbf82fc1f3c5c30413f;
  0x1c66fc8930ac5513f5fe8867c0c3870bf0fa2006328d0983f298e25268ce8f53e;
  0x1bd7a1fa417ff13bf852aa2949f973e3ff4d0cca0972253bf63c94d9c2f76713f;
  0x1a154b0953de89abfc8abfdcb272a4ebf9dd908f86d866b3fa4e6d6bf7b3f95bf;
  0x1d08bbf50518df3be62ca368f81d8113f6a85d2244a4d3bbfc76fc8930ac5513f;
  0x15fe8867c0c3870bf0ea2006328d0983fcf8bbf50518df3be61ca368f81d8113f;
  0x16a85d2244a4d3bbf3c1a2995d9a5083f6bcd4ad9449c26bf893a90b1906b4c3f;
  0x1298e25268ce8f53ebd7a1fa417ff13bf832aa2949f973e3fa190a71ed26961bf;
  0x1cef0d666d25a91bffb81427709bc663f18461b2cb99d28bf8a4a3238858858bf;
  0x1d4d4bcdbb211303f3a3922d96dbc79bf53df80db369ca2bf0c88add4ee37903f;
  0x1ceba9d2f414a52bf637fee6060db733fdcccadec239f823f36186ec996a611bf;
  0x13d66f8b9629741bf48bc46ec5f0b173fa290a71ed26961bfcef0d666d25a91bf;
  0x1fd81427709bc663f36186ec996a611bf3e66f8b9629741bf48bc46ec5f0b173f;
  0x196156607149b37bf2f14bba08046863fee8e9cf38f99803f18461b2cb99d28bf;
  0x18a4a3238858858bfd4d4bcdbb211303f1ebb3450de5e793f961712a8a7af743f;
  0x177dc72f0fedd97bf41f5897f69ecb03f1d61a69e4a2a9bbf5e5ffe93bc4066bf;
  0x1579d0027a1fdab3fe28dc310b9e3adbf14f106723e8d61bf185c97b2865c89bf;
  0x132d2432fddea973f8744e8c13ecf96bfb4c53b92ffb18b3f2895fbce7b3c6e3f;
  0x1c701772bcc9a7bbf1ebb3450de5e793f981712a8a7af743f76dc72f0fedd97bf;
  0x1b6c53b92ffb18b3f3895fbce7b3c6e3fcc01772bcc9a7bbf341e2aad54e4733f;
  0x108dc39d2aec1acbf0640e1a5c4d89dbf40f5897f69ecb03f1a61a69e4a2a9bbf;
  0x15c5ffe93bc4066bfde491374a78e87bfd977d84e77d1693f1608e2c50cc6523f;
  0x1aa8d574a151ab1bfee4ad5bd48be923f6058b6591c427b3fc8a9b10ca88eacbf;
  0x16af84f0e08c8ab3f02008461c2ff783fa5a2f5839be5a63f2c970923ce5d9b3f;
  0x1869b70b0b30170bfc035dbd64beb7ebf778041187ff1603fb527898ffda3483f;
  0x1de491374a78e87bfd677d84e77d1693f1608e2c50cc6523fc035dbd64beb7ebf;
  0x1768041187ff1603fb627898ffda3483f6851492c01db613f464cc8a2aca6a33f;
  0x130382b2e419f353fa98d574a151ab1bfeb4ad5bd48be923f6058b6591c427b3f;
  0x183a909dade7e633fe48b7b9bf2f6743fe6ccbcef60065abf06c070886d7f583f;
  0x130f5cdb7ff576a3f35161fdfe75950bfc091df1c8500563f1e9e63833eef913f;
  0x1f1fae0bca1f37a3f897bf6cd969590bf8af19b68e3b094bf47f179e59eb9923f;
  0x12081ea17c3f986bfc077e57af8b498bf186bfe3aa4ab7e3f83a909dade7e633f;
  0x1e48b7b9bf2f6743fe4ccbcef60065abf2281ea17c3f986bfc277e57af8b498bf;
  0x11c6bfe3aa4ab7e3f85529cff2d1276bfa8048d4841e1683f8e26d59c5fad863f;
  0x108c070886d7f583f30f5cdb7ff576a3f37161fdfe75950bf60af6710bffb573f;
  0x1f4a34d585338733ff7763f3aa2b453bf4e32e1c4381e40bf80c4cdff6ad559bf;
  0x1fbf99b30807c3a3f2edfa94e53813f3f834387d6efd08e3f3fe2013ccaaf7d3f;
  0x13ab97454314f8ebf7ef8ef94e15fa1bf966fafd11a47943f5a984120ec38753f;
  0x1842ca872e201913f2a989bcbe16f71bf60af6710bffb573ff4a34d585338733f;
  0x1f7763f3aa2b453bf5b984120ec38753f842ca872e201913f2a989bcbe16f71bf;
  0x1f48df638305f52bf3be5a849764c843faa1f1afe048a813f4f32e1c4381e40bf;
  0x180c4cdff6ad559bffdf99b30807c3a3f26c2ab1519b6513fd3c19c5b4d2570bf;
  0x180943a39e83a993fc3129a64247422bfe5deaa168cd2403f46175deba0496abf;
  0x1d618c4a6ab7053bf24fefd6f9db7713fd4cd5c4412e79bbfe184cf8f54584dbf;
  0x1a8319fa3febd6a3f3ada1950701c95bf861f126be822203fa39cd33f816b3dbf;
  0x1e04b60288efc663f27c2ab1519b6513fd3c19c5b4d2570bf7f943a39e83a993f;
  0x1861f126be822203fa39cd33f816b3dbfe04b60288efc663f133f3f4200aa013f;
  0x148308ea3b13e20bfcefa6dd0e872423fc3129a64247422bfe5deaa168cd2403f;
  0x146175deba0496abfa0778216b228393fc460d5f32dd18cbfc8ec7a5e8799343f;
  0x10e523630cfb625bf67737be410df783f08e452a974c721bfd1756eb1b9c23e3f;
  0x13ccadfe21dc7a0bf55e907f8dc5f833f1abc107c64403dbf585e52776d074a3f;
  0x18cc9e98dc4d6813fe05ebeb040980fbfd7b7a7822518623fb0068e0685de09bf;
  0x1a0778216b228393fc460d5f32dd18cbfc0ec7a5e8799343fe05ebeb040980fbf;
  0x1d8b7a7822518623fb8068e0685de09bf237bcaaf795942bfc9a210d17950743f;
  0x166005b1afca5813f0e523630cfb625bf68737be410df783f18e452a974c721bf;
  0x1aa2a847b54ec7e3f3f14b39bd829933fb266779cccbf99bf607c92d55ad5ae3f;
  0x187d9b4aafdf2a3bf8869c0f489186f3f6d86521ea3a9b73f1de69948d25eb7bf;
  0x1bb4d510bb8168abf0ea5796a54d0a2bf7d0d0c8c9731923f58fec398ed3796bf;
  0x1c0b1ec7d9b94733f6760d5de6e74773ff6877b646f8876bfaa2a847b54ec7e3f;
  0x14014b39bd829933fb266779cccbf99bfbeb1ec7d9b94733f6a60d5de6e74773f;
  0x1f1877b646f8876bf825c5411f82ca4bf3c76e2e4fae7abbfa5fabb15a78997bf;
  0x1627c92d55ad5ae3f88d9b4aafdf2a3bf8869c0f489186f3fa05c3720940568bf;
  0x1f79badcdfcae543f0a86d1ebb813203f3419dcf54579b0bf62d4965a6b5e9c3f;
  0x10c829006fb0c663f63fc22b2d90eb4bfe2d7cf1563f5b43feaf013fb0e4a3c3f;
  0x1a50a381aa00db33f5f7d5fa0697b903f9f269538696878bfc63f0f4e853a54bf;
  0x1c8563902e06a413f88caa794a5130b3fa15c3720940568bff89badcdfcae543f;
  0x10a86d1ebb813203fc63f0f4e853a54bfc9563902e06a413f88caa794a5130b3f;
  0x1ff65ff494943a83fcee7bea9e1669c3f8f81b56c7ac673bf3519dcf54579b0bf;
  0x164d4965a6b5e9c3f0c829006fb0c663fb70f7e7773715f3f275fee12623f703f;
  0x17ea16fcf3e8e54bf4b7864f2724f573f068acffc1a17683f223f7ced507a4ebf;
  0x1aa62ad60e8c8593f80cdfaaac274923f3c36bf2bd94f7a3f53bcaf28a2918ebf;
  0x1b2c02c676b7790bf30dfc956a19f913feac54a11d66289bf4580aa83453c9abf;
  0x120824d048c98803fb80f7e7773715f3f275fee12623f703f81a16fcf3e8e54bf;
  0x1e9c54a11d66289bf4680aa83453c9abf1f824d048c98803f40ebe7fe994a7ebf;
  0x1108ea0f186df40bf125f032e142a893f4b7864f2724f573f078acffc1a17683f;
  0x1203f7ced507a4ebff00d06af2c6547bf58a4bd9e9d365abf02573f4d90e83f3f;
  0x12a2b006c5d91303f56915aee4490423fde03a63bbf9826bfe38f2932eca4583f;
  0x18c4ca0d61048923febc931de1d847a3ff23939db658794bff2d421c6712c9fbf;
  0x11753c7e8cfad953fa1a3b175b24a7f3f140e10acd287913f1b99b1dad85675bf;
  0x1f00d06af2c6547bf58a4bd9e9d365abf02573f4d90e83f3fa2a3b175b24a7f3f;
  0x1140e10acd287913f1d99b1dad85675bfdfef2f06e24953bfe2082f54bd41883f;
  0x1dae85713c500813f2a2b006c5d91303f56915aee4490423fe003a63bbf9826bf;
  0x16ef7d5af55a3503fea89472ffa816ebf9da39b42ad1f953f92b53c16b0fa25bf;
  0x1a9643b7a9626443f4ff6ab2eade76bbf2678fdacab5b50bf058484da31fe6d3f;
  0x181318d7684de94bfb6e73d4982824fbfc47cee190ee36c3f77503c43781a94bf;
  0x1de70f54d9e95253f7e124535edc943bf640a77ac5b676b3f6ef7d5af55a3503f;
  0x1ea89472ffa816ebf9da39b42ad1f953fdc70f54d9e95253f7d124535edc943bf;
  0x1630a77ac5b676b3f2417e5b43dc2e13edc0fb75a3b6000bf6044761b7644133f;
  0x192b53c16b0fa25bfa8643b7a9626443f4ff6ab2eade76bbf65bc5c1f17027cbf;
  0x145ba74cdf71093bf1373184fe624753f49ea0c3dd778653febf6d0ffd63b7d3f;
  0x13f858b9db73560bfd0bf1b3f488c90bfa071c3f1dcd69ebf9148cd7dba43943f;
  0x1e8911d21c9985cbf62764a7bf4b4823f5ecc28d51d3e823f736b2d404a21513f;
  0x1a9bfeb4b7c52673faebf955627dd49bf66bc5c1f17027cbf46ba74cdf71093bf;
  0x11473184fe624753f736b2d404a21513faabfeb4b7c52673fb3bf955627dd49bf;
  0x1104609e23c0d433f65c05196c3ae8f3f3c038168524a7d3f4bea0c3dd778653f;
  0x1eef6d0ffd63b7d3f41858b9db73560bf]%N.
Definition file_126 : list N := [0x1934e554d5059010076007b276465736372273a205b282773616d706c65272c20;
  0x1273c693427292c202827737472756374757265272c20273c693427292c202827;
  0x161746f6d272c20273c693427295d2c2027666f727472616e5f6f72646572273a;
  0x12046616c73652c20277368617065273a202831382c292c207d2020202020200a;
  0x10000000000000000000000000000000000000000040000000000000000000000;
  0x10500000000000000000000000600000000000000000000000700000000000000;
  0x10000000009000000010000000100000000000000010000000100000004000000;
  0x10100000001000000050000000100000001000000060000000100000001000000;
  0x10700000001000000010000000900000002000000020000000000000002000000;
  0x10200000004000000020000000200000005000000020000000200000006000000;
  0x1020000000200000007000000020000000200000009000000]%N.
Definition file_127 : list N := [0x1934e554d5059010076007b276465736372273a205b28276772616469656e745f;
  0x1646972656374696f6e272c20273c693427295d2c2027666f727472616e5f6f72;
  0x1646572273a2046616c73652c20277368617065273a2028332c292c207d202020;
  0x1202020202020202020202020202020202020202020202020202020202020200a;
  0x1000000000100000002000000]%N.
Definition file_128 : list N := [0x1934e554d5059010076007b276465736372273a205b282773706865726963616c;
  0x15f6861726d6f6e6963735f6d272c20273c693427295d2c2027666f727472616e;
  0x15f6f72646572273a2046616c73652c20277368617065273a2028332c292c207d;
  0x1202020202020202020202020202020202020202020202020202020202020200a;
  0x1ffffffff0000000001000000]%N.
Definition file_129 : list N := [0x1934e554d5059010076007b276465736372273a20273c6638272c2027666f7274;
  0x172616e5f6f72646572273a2046616c73652c20277368617065273a2028332c20;
  0x1332c2033292c207d202020202020202020202020202020202020202020202020;
  0x1202020202020202020202020202020202020202020202020202020202020200a;
  0x1002f1edf35a0a13f5ad8a5ef360caa3f1355669f2043843f39275f3029ca4bbf;
  0x105747b05163d4fbf62c28bc663000fbf7db4982b71e589bf6172a4bc858ca6bf;
  0x1bc6873da8452a4bf683cebd1952da03f90014dd5b9c9ab3fa1873bd03cf6833f;
  0x1709ce5eb9a25673fe3cfd7915b52733f86efa4ac8d2d573fae3be5df697086bf;
  0x1b6550a44563aa8bf54c36db1d6dea3bf85615e891834a23ffde19d2a7105ac3f;
  0x11b874c309a5c843f7ae789d8371c703f3da1e8abb6e2773f81d450ca5056573f;
  0x18fe37256e1b780bfa2d8d2c8a8e8a8bf5200799823ffa2bf]%N.
Definition file_130 : list N := [0x1934e554d5059010076007b276465736372273a205b2827737472756374757265;
  0x1272c20273c693427292c20282763656e746572272c20273c693427295d2c2027;
  0x1666f727472616e5f6f72646572273a2046616c73652c20277368617065273a20;
  0x128332c292c207d2020202020202020202020202020202020202020202020200a;
  0x1000000000000000001000000000000000200000000000000]%N.
Definition file_131 : list N := [0x1934e554d5059010076007b276465736372273a205b282773706865726963616c;
  0x15f6861726d6f6e6963735f6d272c20273c693427295d2c2027666f727472616e;
  0x15f6f72646572273a2046616c73652c20277368617065273a2028332c292c207d;
  0x1202020202020202020202020202020202020202020202020202020202020200a;
  0x1ffffffff0000000001000000]%N.
Definition file_132 : list N := [0x1934e554d5059010076007b276465736372273a205b28276e272c20273c693427;
  0x1295d2c2027666f727472616e5f6f72646572273a2046616c73652c2027736861;
  0x17065273a2028332c292c207d2020202020202020202020202020202020202020;
  0x1202020202020202020202020202020202020202020202020202020202020200a;
  0x1000000000100000002000000]%N.
Definition file_133 : list N := [0x1934e554d5059010076007b276465736372273a20273c6638272c2027666f7274;
  0x172616e5f6f72646572273a2046616c73652c20277368617065273a202831322c;
  0x120332c20332c2033292c207d2020202020202020202020202020202020202020;
  0x1202020202020202020202020202020202020202020202020202020202020200a;
  0x164ecff7dfe75a5bf67aa42b53d6f97bf6b8a39a272f1833f284018aed04b4f3f;
  0x1d71b701e0ec2183f534d8c02b03722bf7c361f57e7fa84bf20469ecf8d7c9e3f;
  0x12a6b86b6feff92bfd2ac64c68214b23f940d72cd81fba0bf4a1c0ab2a03ca1bf;
  0x18d35b1c4840a63bfea1be1f6269e233fbeeb6cb4760a3a3f64ecff7dfe75a5bf;
  0x169aa42b53d6f97bf6c8a39a272f1833f8d35b1c4840a63bff21be1f6269e233f;
  0x1c1eb6cb4760a3a3fb31163c673ec9abf46f7834b08a6a5bf4075ad843e358fbf;
  0x1284018aed04b4f3fd31b701e0ec2183f554d8c02b03722bf63639ad688a5a43f;
  0x1ec34dcc751bb62bff7f6e2cc498e7cbf975c9a20d20a50bf1040c9cfda1b0d3f;
  0x14fcc59120a30263ffc3c496b6d10853f07417322b26d9f3f5132560cea91563f;
  0x12f271514ec90b1bfdf981b674501a23fb1b0d68315c28e3f789770509111633f;
  0x1806e72b0d14c21bf6807c36b925f3abf63639ad688a5a43fec34dcc751bb62bf;
  0x1f8f6e2cc498e7cbf789770509111633f886e72b0d14c21bf6a07c36b925f3abf;
  0x1006f317c12d89b3fb8a71a0865729e3ff5518163445159bf975c9a20d20a50bf;
  0x11840c9cfda1b0d3f51cc59120a30263f20a300e8007a5d3f4e784bd7dabb973f;
  0x1713f8d2f84b068bf7ed0a6c976e4cd3ee68e7efd9211083f4bba70faaf09d9be;
  0x184d8175a5dc36bbf4bf0bf1936669cbff1806c2efded8a3fe5191e05978f5abf;
  0x1810f7773e64e74bf196cdb4543dd843fa2ad3aa35e9ec2bee16a197686fbfdbe;
  0x1c463c11c9a30cf3e20a300e8007a5d3f50784bd7dabb973f733f8d2f84b068bf;
  0x1a1ad3aa35e9ec2bedf6a197686fbfdbebc63c11c9a30cf3e0153c698186740bf;
  0x1ad931d9f4369833f7de718981305813f7dd0a6c976e4cd3ee68e7efd9211083f;
  0x147ba70faaf09d9be41187cda5f5a2bbfb8c595b76856603f921d68036a3a303f;
  0x1b0465a8ae37df53ea9018a8262ac29bf4ec9cf7f6480f9be86be6f09456d6b3f;
  0x16ecb28ec04c2a0bf341e2bfa857f703f463b0d3b565839bf546a554c9341683f;
  0x15e5476fe2953813f14fd99b4a027b3be1fff4785b8e1e63e33e2981c83bab63e;
  0x140187cda5f5a2bbfb8c595b76856603f921d68036a3a303f14fd99b4a027b3be;
  0x11fff4785b8e1e63e35e2981c83bab63e4aad0a427c193abff2e7f3fa4d28693f;
  0x101b80479535a813fb0465a8ae37df53ea9018a8262ac29bf4ec9cf7f6480f9be;
  0x1a39272f33cf5a3bf3573104716f19abf62c89ea2de3a863f6e4e184a6fa16abf;
  0x148c12083495667bf343f13c83898453f4fef7f674bcf7cbf388e752a6abf9f3f;
  0x1417b1d41197395bf7f5ad01504c4b13f4e165c1c54299ebfca8c3412a42da2bf;
  0x1a812229b4bf8803f557bb2fc12c44d3fe9547fda1bdd5bbfa39272f33cf5a3bf;
  0x13373104716f19abf61c89ea2de3a863fa612229b4bf8803f577bb2fc12c44d3f;
  0x1ea547fda1bdd5bbfb6c476a8c30d97bf17c71f69d9bda6bf5e8efa0fed0890bf;
  0x16d4e184a6fa16abf48c12083495667bf333f13c83898453f9c188f76fd41a23f;
  0x180b2575f53b3293f94456acb22217cbf897a739de1676a3f2084bdf4c295f23e;
  0x1424ba9906a5744bf933e6f26fa37843f2e9f3b5679749e3f28f24aecf3cb5c3f;
  0x19474ad46870cb1bf346dfc823f069e3fe067272255e1903f8a56e2bbcac180bf;
  0x1001a42af829607bfb208165c35d1593f9c188f76fd41a23f40b2575f53b3293f;
  0x194456acb22217cbf8856e2bbcac180bf001a42af829607bfb208165c35d1593f;
  0x1c95baf16c2bc973f527c824aa8879e3fa05ab05e71644abf887a739de1676a3f;
  0x12084bdf4c295f23e424ba9906a5744bf45ad9eac5a146d3f6382da611577983f;
  0x15aab5fda726c71bf74e0059970b4283ffee5dc93e0c8543fe4ca3dc8da9a2dbf;
  0x1d9e93ef0792379bfa8dd892d599e9cbfdb42359c83c48e3fc5b7a3b960bd63bf;
  0x140624a95226a67bf6c8340657a9e853f485a7d7dfadc1dbf6579346bdf1f49bf;
  0x178cd8c37a8e4213f43ad9eac5a146d3f6282da611577983f59ab5fda726c71bf;
  0x14c5a7d7dfadc1dbf6779346bdf1f49bf7ccd8c37a8e4213fa8f7c5a095b531bf;
  0x145c4f6b2eea2873f3111bae6545e803f75e0059970b4283fffe5dc93e0c8543f;
  0x1e8ca3dc8da9a2dbf6dcd70e62d062ebf660bbaf3d134623fac02c608867d313f;
  0x123a2b8ce951b25bf82a691665b99593f1cfb95eaa197283f02b8c015a2056b3f;
  0x1dfa79329c5caa0bfc4aaf8d06010713fd82cc855c99139bf0cab4760c782683f;
  0x1fddf429f6b55813fd45cfaec56e4e43e80024f345b5619bf39bc26444457e8be;
  0x16ccd70e62d062ebf670bbaf3d134623fac02c608867d313fd45cfaec56e4e43e;
  0x180024f345b5619bf3fbc26444457e8be12cd5fed050a3abfc97d0d729914693f;
  0x13511264fcc59813f22a2b8ce951b25bf81a691665b99593f23fb95eaa197283f;
  0x1b028b041ee98a0bfeffe584d75e399bfe644051e5ba0823f23a06b403a686bbf;
  0x1db6e236d13536bbf9a2f3b3a53fc493fcec84c7c35658cbf4c4e8ddd40a5a13f;
  0x1087507f914ef98bf41ca14ac6312b43fb521802297dca1bf8a993a2ef64ca2bf;
  0x13c8b50386b8c873fdd097fc9fa7420bfc0c24ff310d760bfaf28b041ee98a0bf;
  0x1f1fe584d75e399bfe744051e5ba0823f3d8b50386b8c873fee097fc9fa7420bf;
  0x1c0c24ff310d760bf99abe605405399bf99455594b7e6a7bf6fbefc1463a78fbf;
  0x123a06b403a686bbfdb6e236d13536bbf9a2f3b3a53fc493f0ff42cd91e629e3f;
  0x128683bf1239b59bfc9658021132b75bf70fe300edb2d6b3fd806e23cd9e726bf;
  0x108c29f1097ef42bff6e95148addd923f5f9153c285eb9e3f406237582917f3be;
  0x13ef57866f852b3bf1eaf47bb19fea13f105dc25e09bb903f0bc931f1e67887bf;
  0x13ce5d4281ac8433f67afd171725a603f0ef42cd91e629e3f28683bf1239b59bf;
  0x1c9658021132b75bf0cc931f1e67887bf40e5d4281ac8433f67afd171725a603f;
  0x1c230386058599a3fe474a8609e869e3fd8a101f4002755bf70fe300edb2d6b3f;
  0x1d806e23cd9e726bf08c29f1097ef42bf8533f5b1cca4663ff755124c4a68993f;
  0x12175daf278676fbf6a6c968650000d3f45275d703845403f412ca639521c14bf;
  0x186f7c7da84f171bf30cc461146cc99bfe755f65827048c3f7e670e24570963bf;
  0x1ab40ea3362907bbffbd1bed6812c863ff558ccb52a2704bf9f7ed3d9d59c36bf;
  0x19fe621cd26f30b3f8733f5b1cca4663ff955124c4a68993f2775daf278676fbf;
  0x1f558ccb52a2704bf9e7ed3d9d59c36bf99e621cd26f30b3f81bee670fe753abf;
  0x156a4b686de83853fb3f6a60168b8803f6c6c968650000d3f46275d703845403f;
  0x13f2ca639521c14bf397d242db06ff3bed8fbd202eaa6603f705c3a47a87918bf;
  0x190ffdbef07d1fcbe7745dae442b0683f28a09a89c72422bfcbd6c3bca95827bf;
  0x1e4b013b6e034a4bfd9afc42d8ee3853f49e3b03d469043bf66d5ad6d4d847a3f;
  0x10adaa6244491813f6bfc44e1725cb43ed58d2d26c27121bfc87e1793cca3d93e;
  0x1387d242db06ff3bed8fbd202eaa6603f705c3a47a87918bf6bfc44e1725cb43e;
  0x1d68d2d26c27121bfd07e1793cca3d93ede45bd110c8843bf86109b1286137a3f;
  0x1f7fbd531db93813f90ffdbef07d1fcbe7745dae442b0683f28a09a89c72422bf]%N.
Definition file_134 : list N := [0x1934e554d5059010076007b276465736372273a205b282773616d706c65272c20;
  0x1273c693427292c202827737472756374757265272c20273c693427292c202827;
  0x161746f6d272c20273c693427295d2c2027666f727472616e5f6f72646572273a;
  0x12046616c73652c20277368617065273a202831322c292c207d2020202020200a;
  0x10000000000000000000000000000000000000000010000000000000000000000;
  0x10200000000000000000000000300000001000000010000000000000001000000;
  0x10100000001000000010000000100000002000000010000000100000003000000;
  0x10200000002000000000000000200000002000000010000000200000002000000;
  0x102000000020000000200000003000000]%N.
Definition file_135 : list N := [0x1934e554d5059010076007b276465736372273a205b28276772616469656e745f;
  0x1646972656374696f6e272c20273c693427295d2c2027666f727472616e5f6f72;
  0x1646572273a2046616c73652c20277368617065273a2028332c292c207d202020;
  0x1202020202020202020202020202020202020202020202020202020202020200a;
  0x1000000000100000002000000]%N.
Definition file_136 : list N := [0x1934e554d5059010076007b276465736372273a205b282773706865726963616c;
  0x15f6861726d6f6e6963735f6d272c20273c693427295d2c2027666f727472616e;
  0x15f6f72646572273a2046616c73652c20277368617065273a2028332c292c207d;
  0x1202020202020202020202020202020202020202020202020202020202020200a;
  0x1ffffffff0000000001000000]%N.
Definition file_137 : list N := [0x1934e554d5059010076007b276465736372273a20273c6638272c2027666f7274;
  0x172616e5f6f72646572273a2046616c73652c20277368617065273a2028332c20;
  0x1332c2033292c207d202020202020202020202020202020202020202020202020;
  0x1202020202020202020202020202020202020202020202020202020202020200a;
  0x10000000000000000000000000000000000000000000000000000000000000000;
  0x10000000000000000000000000000000000000000000000000000000000000000;
  0x10000000000000000000000000000000000000000000000000000000000000000;
  0x10000000000000000000000000000000000000000000000000000000000000000;
  0x10000000000000000000000000000000000000000000000000000000000000000;
  0x10000000000000000000000000000000000000000000000000000000000000000;
  0x1000000000000000000000000000000000000000000000000]%N.
Definition file_138 : list N := [0x1934e554d5059010076007b276465736372273a205b2827737472756374757265;
  0x1272c20273c693427292c20282763656e746572272c20273c693427295d2c2027;
  0x1666f727472616e5f6f72646572273a2046616c73652c20277368617065273a20;
  0x128332c292c207d2020202020202020202020202020202020202020202020200a;
  0x1000000000000000001000000000000000200000000000000]%N.
Definition file_139 : list N := [0x1934e554d5059010076007b276465736372273a205b282773706865726963616c;
  0x15f6861726d6f6e6963735f6d272c20273c693427295d2c2027666f727472616e;
  0x15f6f72646572273a2046616c73652c20277368617065273a2028332c292c207d;
  0x1202020202020202020202020202020202020202020202020202020202020200a;
  0x1ffffffff0000000001000000]%N.
Definition file_140 : list N := [0x1934e554d5059010076007b276465736372273a205b28276e272c20273c693427;
  0x1295d2c2027666f727472616e5f6f72646572273a2046616c73652c2027736861;
  0x17065273a2028332c292c207d2020202020202020202020202020202020202020;
  0x1202020202020202020202020202020202020202020202020202020202020200a;
  0x1000000000100000002000000]%N.
Definition file_141 : list N := [0x1934e554d5059010076007b276465736372273a20273c6638272c2027666f7274;
  0x172616e5f6f72646572273a2046616c73652c20277368617065273a2028332c20;
  0x1332c20332c2033292c207d202020202020202020202020202020202020202020;
  0x1202020202020202020202020202020202020202020202020202020202020200a;
  0x10000000000000000000000000000000000000000000000000000000000000000;
  0x10000000000000000000000000000000000000000000000000000000000000000;
  0x10000000000000000000000000000000000000000000000000000000000000000;
  0x10000000000000000000000000000000000000000000000000000000000000000;
  0x10000000000000000000000000000000000000000000000000000000000000000;
  0x10000000000000000000000000000000000000000000000000000000000000000;
  0x10000000000000000000000000000000000000000000000000000000000000000;
  0x10000000000000000000000000000000000000000000000000000000000000000;
  0x10000000000000000000000000000000000000000000000000000000000000000;
  0x10000000000000000000000000000000000000000000000000000000000000000;
  0x10000000000000000000000000000000000000000000000000000000000000000;
  0x10000000000000000000000000000000000000000000000000000000000000000;
  0x10000000000000000000000000000000000000000000000000000000000000000;
  0x10000000000000000000000000000000000000000000000000000000000000000;
  0x10000000000000000000000000000000000000000000000000000000000000000;
  0x10000000000000000000000000000000000000000000000000000000000000000;
  0x10000000000000000000000000000000000000000000000000000000000000000;
  0x10000000000000000000000000000000000000000000000000000000000000000;
  0x10000000000000000000000000000000000000000000000000000000000000000;
  0x10000000000000000000000000000000000000000000000000000000000000000;
  0x10000000000000000]%N.
Definition file_142 : list N := [0x1934e554d5059010076007b276465736372273a205b282773616d706c65272c20;
  0x1273c693427292c202827737472756374757265272c20273c693427292c202827;
  0x161746f6d272c20273c693427295d2c2027666f727472616e5f6f72646572273a;
  0x12046616c73652c20277368617065273a2028332c292c207d202020202020200a;
  0x10000000000000000000000000100000001000000000000000200000002000000;
  0x100000000]%N.
Definition file_143 : list N := [0x1934e554d5059010076007b276465736372273a205b28276772616469656e745f;
  0x1646972656374696f6e272c20273c693427295d2c2027666f727472616e5f6f72;
  0x1646572273a2046616c73652c20277368617065273a2028332c292c207d202020;
  0x1202020202020202020202020202020202020202020202020202020202020200a;
  0x1000000000100000002000000]%N.
Definition file_144 : list N := [0x1934e554d5059010076007b276465736372273a205b282773706865726963616c;
  0x15f6861726d6f6e6963735f6d272c20273c693427295d2c2027666f727472616e;
  0x15f6f72646572273a2046616c73652c20277368617065273a2028332c292c207d;
  0x1202020202020202020202020202020202020202020202020202020202020200a;
  0x1ffffffff0000000001000000]%N.
Definition file_145 : list N := [0x1934e554d5059010076007b276465736372273a20273c6638272c2027666f7274;
  0x172616e5f6f72646572273a2046616c73652c20277368617065273a202831382c;
  0x120352c2033292c207d2020202020202020202020202020202020202020202020;
  0x1202020202020202020202020202020202020202020202020202020202020200a;
  0x17c3d5a16d3272e3f002887849baea9bf15a285b8009c99bf447e015ff80829bf;
  0x10022e6724acf51bf80a371012b092c3f69e7b4447a4327bfeacdcf9d2b8294bf;
  0x16a04b1c8516391bf6006e48e5723223f70dc857b15ca413f003f7a1ec4ae213f;
  0x192572385486e343fec166d45a0b397bfdec42ee3cc5779bf18cc6af07fab433f;
  0x15996257c8dd59ebf3613224694c195bf4f2edd4849cc3f3fbaeff9b117dd913f;
  0x1eb8555cf7fac823ffa496bcc2faf943f5dad78aeeacda23fe829fabf2d3e84bf;
  0x1cab8baeb28a156bf6edfc6e758664fbf64c536f6f19e7a3fdb6e8d45d58755bf;
  0x1f72dab8cf4b47b3f8afcf601c4f28a3f26532eeef9ee393f299dc71b1bf99ebf;
  0x1984ae2a016fb94bfe3b87081b6e3253f2faa2ae5995b90bf5390a0e0626681bf;
  0x12a854d124581943fc43fdbf28ebda33f2e9b8f5995a682bf2fd275e9c7ea443f;
  0x1375b2bee113d42bfbb9f2a53a25282bf529dbc1fa37e57bfd282520532b56b3f;
  0x107cc82d2110e8b3fb25d0c401d5342bf5e0885f11a6a7e3f4a9c624973b4663f;
  0x1d36a4516bce616bf546a349054444a3f6b91b9acd184693f6925bea170d6613f;
  0x15d902cca88689bbf8c14dd883466a7bf60cdb04e2980163f4fc9c36f5754523f;
  0x1d612502a9fa558bff6f050cedcfd60bf97c237cd043a973f20a90649289b753f;
  0x1740855735b6881bf0324c14d512d94bf10b739bc79a6893f619725cf7c8a283f;
  0x1e7497a23aa07613f62cb91d830f2523fce7872ca286c6fbfb61d5896262aa3bf;
  0x1b0c691d1eda893bf765e6c81a6af3fbf2cac0ebce9b05fbf00a6bb671a2fd13e;
  0x10a57cb0ea9c9743f1a3411672ff28e3f9978f894fcb272bfe3a5bb299cda7bbf;
  0x1704c18d2c3f7a3bf6e1471fcb0a681bf0f0d4d5fbf5e2f3f42bc43fd5188573f;
  0x16e50c96775ad603fb0b23b1b747c74bfc49ded0d5d249abf5bf671af61de99bf;
  0x186e6261085023dbf96f7e96fc5da63bf61254227e36843bf9d987af7db11733f;
  0x1e79b7b6b0a45963f70676b46518689bf41747b26c3215cbf7f174697828fa7bf;
  0x1a8b6606289b89ebf96da966cb19a613f8024e38c9507553fb9bca9f4a6278cbf;
  0x1d60c42c80c9555bfd212539aca1b96bf57d1aa67be8d85bf20220082dc3958bf;
  0x1e835626365ff64bf605ad856003d803f90f19b8e81962dbfea8470a38fb58dbf;
  0x19380eafad5da87bfc4ce7f71c38262bfc3ed4fd92b1da4bf0b9ec32f678295bf;
  0x1ad20ef4daf1469bf6f067e33d8eb76bf34388e4c840363bf9a0d8fa3aac9893f;
  0x1d8e614a3f7499f3fba43b971f37368bf9fc86fee76f063bf1bcffa9b43385bbf;
  0x18feb16fdd147923f9c9a5059d2f760bf81052e3713896abf75d6bcedcd8c8b3f;
  0x1e48aaf9cb4b3553ff03aea93ab6f8bbfaa94b8844ff393bfb918fb6d5b6e69bf;
  0x112b4e34591f59abf4c81ac3a3ed094bf9e5086c3362d8e3f8812fc854b7ea23f;
  0x13cfb8cf18ae579bf641147cc91f74cbffe730ba989d06cbf451c24afb97b713f;
  0x1b6e6c5b0c2064fbf9c2b05d4df57933f12d0deb57ddd883fd3a38436f0003abf;
  0x1de921169ea07913f13e8246402f67a3f0ac35063dab3353f1063617652277ebf;
  0x1bfb2b53fa16691bf361208f81f9b533f5dd5d1403dfa9dbfbc753e726744a2bf;
  0x137eb96f3872f45bfd42c9aebf64668bf218936a76718883fb2660d61913360bf;
  0x1c77c803763e2973f9c6b0ca99eab863f554cd65775cc87bfe89ef012959b94bf;
  0x1a81860a24cd8863fef807a4ba82f62bfdef75a4733fb90bf8fb7b6e940d67bbf;
  0x1974c40d1a5ba75bfed5aaa5049cda3bf58965635aee48fbf30b028809d866a3f;
  0x11c7eba90706f813f3479a96d5b9051bfb951b9bef064663fd83d6252884d50bf;
  0x103c4e47ebb317bbf9b388de74bdc85bf2247d38e887ea6bf34ce82d3853182bf;
  0x10ec110f86d7a65bf555d6d4c521884bfbaf0be88f9bb83bf588ceb16c9e078bf;
  0x198fdd8de494f98bf044f416f02918cbf17fb0f86503b693fecc630f985e0893f;
  0x144d4cace68fa643f5375ce164912603f382f5546c880853f9d7ca1d4cb1c91bf;
  0x1f1248c8dd3904fbff19f9b8da064a6bf6e8fa41bcdbf88bf1b232e495c645f3f;
  0x1f0e737d67671613f72e4df749c3378bfea9c1b883ef527bf6df7fbd4bd9d93bf;
  0x14e0e4f24576299bffc39548b6ee352bfcc3cea3b6f7f78bf6c346fec9796623f;
  0x116bc8a8368ba2bbf9806d3fff7c496bf5a7563fd95197b3f5ed4892e2e2443bf;
  0x1593e6baea4cd9fbf4c550bbafeaf6cbf9c850172faaa45bf2cd47baa94f7753f;
  0x1b29c734e20f0803f144c913cd6827b3f9c65c57b000ca23f75a2deab9cc86abf;
  0x1186058b2c6086bbf4234572a9bef93bf253d7c881988953fc76d49e2d92554bf;
  0x1347ec6b26dfa7cbf149c9c0823156a3fbc04d0c4248e583f26ec86e8cf9c94bf;
  0x133e3958c454494bff20719fdb76c56bfad7863a79981a0bfff41309040a792bf;
  0x10a2f2ab57a86813f9851af90f2729f3f8537da13b1a476bf55e584e08b7f5cbf;
  0x17692a18c25047cbfb023347d6df352bf1de71fe4975650bfdcc06e256c10713f;
  0x1c2b6022073e6853f4802616adf1f15bffcc26a857c3661bf809a4f860c694ebf;
  0x18df2ed904b46333f5af7be81fb7465bf3834d560f39091bfdefbeea12e31563f;
  0x159d83642f6cd8ebf1dc798de0b7fa1bf240f5177d9ee37bf3a48c9e51779523f;
  0x1af9a5b6d0dea8f3faccd8033679b5dbf3b767fd42018933ff03c9b910ac6833f;
  0x1c39f370b94fc7abfa6d3c50602c296bfb002c253c6838d3ff7aedcb091e54ebf;
  0x1365c674fb40b80bf08ca0097b74b7bbffba630a6a3fa6fbf6c3b95cb43ae9cbf;
  0x12ce6e790d2bf93bf23dab4bcc0226a3fe3af45087f5a8e3f6031baf21eb7443f;
  0x1e34ed4aa70837c3fdd32e7e024019c3fd329fa15a95680bf074eea39e17b77bf;
  0x1977635e869539cbfdfa30337c184973f3c710f0a0e5e54bf5dbb86b42dcb76bf;
  0x1ad8345cfe8a8703f2a0cf58a4f2573bf8395cb696d7998bf8adbaf7a6c53a2bf;
  0x19c3269b67fdd693f4676a30fcf13903f944588ef17d88a3f725f43f646f0763f;
  0x1659578e4be75a23fefdd52d7b6d9873f]%N.
Definition file_146 : list N := [0x1934e554d5059010076007b276465736372273a205b2827737472756374757265;
  0x1272c20273c693427292c20282763656e746572272c20273c693427295d2c2027;
  0x1666f727472616e5f6f72646572273a2046616c73652c20277368617065273a20;
  0x12831382c292c207d20202020202020202020202020202020202020202020200a;
  0x10000000004000000000000000500000000000000060000000000000007000000;
  0x10000000008000000000000000900000001000000040000000100000005000000;
  0x10100000006000000010000000700000001000000080000000100000009000000;
  0x10200000004000000020000000500000002000000060000000200000007000000;
  0x102000000080000000200000009000000]%N.
Definition file_147 : list N := [0x1934e554d5059010076007b276465736372273a205b282773706865726963616c;
  0x15f6861726d6f6e6963735f6d272c20273c693427295d2c2027666f727472616e;
  0x15f6f72646572273a2046616c73652c20277368617065273a2028352c292c207d;
  0x1202020202020202020202020202020202020202020202020202020202020200a;
  0x1feffffffffffffff000000000100000002000000]%N.
Definition file_148 : list N := [0x1934e554d5059010076007b276465736372273a205b28276e272c20273c693427;
  0x1295d2c2027666f727472616e5f6f72646572273a2046616c73652c2027736861;
  0x17065273a2028332c292c207d2020202020202020202020202020202020202020;
  0x1202020202020202020202020202020202020202020202020202020202020200a;
  0x1000000000100000002000000]%N.
Definition file_149 : list N := [0x1934e554d5059010076007b276465736372273a20273c6638272c2027666f7274;
  0x172616e5f6f72646572273a2046616c73652c20277368617065273a202837382c;
  0x120332c20352c2033292c207d2020202020202020202020202020202020202020;
  0x1202020202020202020202020202020202020202020202020202020202020200a;
  0x10ee283064a57813f9d737c55fa01913f195c02ab13a1b1bf2894ea97ebab413f;
  0x1e08ee186e7f7413fca390854a8e451bf693fe5d23c7b743fd68a1cb50883703f;
  0x14e060fa185419f3f10f3256ee57a33bfc04ab8074ce0493fd68c94932ecb63bf;
  0x12f6480f41f0d663f8b9f6f281309ae3f3da0c000b63ea7bf24be1d97de088ebf;
  0x1c6e922fee93baebf277f6c2606518f3f486b720ba6514abfc06fbed23aac32bf;
  0x1c033255846bf383f1059dabb80d077bf11fd918027b289bf30de99f589e19d3f;
  0x13094ea97ebab413f008fe186e7f7413fce390854a8e451bf45a988491ff97cbf;
  0x13b7e2e381b097a3fab8800670acd803f2c94ea97ebab413fc08ee186e7f7413f;
  0x1ca390854a8e451bf7ed38e713f68763fa76ffd7e4b8287bfc22e250670299bbf;
  0x1ec1dea033c8f373f00012c82e43f4a3fe0ae4fdace5f4b3f107b3bce3e236bbf;
  0x12580fb5db9027b3f7ee003fb214e973fcc715f543394303f70c18bb8349b413f;
  0x14833995e17e356bf3ae0e484379f72bfc85b992b8dc77dbf1038c31b11fe8d3f;
  0x118cf7e6374dc6a3fe6d44adc8ab6953f1c614e1d6f8a53bf1f812c006e6d5fbf;
  0x118ffb309b8b270bf721b606dc0e1763f2f578eab830962bf0291df2127d86cbf;
  0x143bbafd1f40c7d3f98fc3db2f6795ebfbaaa232b81169bbf72d850a048e97fbf;
  0x14ce18a0396167c3f82693fdac4a39e3f4f410cf81c7386bf75938064d2de74bf;
  0x131d9220d28c496bf650f413047ae803f8a2e3a7ece1b683f2772cfeb709e793f;
  0x18e46f791988d81bf18cf7e6374dc6a3fe5d44adc8ab6953f20614e1d6f8a53bf;
  0x11ed93f2faf90693fe03568c8bded5fbfacd5e75632ee8cbf18cf7e6374dc6a3f;
  0x1e6d44adc8ab6953f18614e1d6f8a53bf22d40c453c0d65bfa0e70ce56f93763f;
  0x1c50d4c7e20858c3f9002be978c84553f649721f98e5e953f76e64360d9cc7b3f;
  0x1ad87998d49715b3f9c002c0df26d6dbf080cac12cb9682bfb9cf721d21b4573f;
  0x110e7e6282329833f188e493b663e41bf0ded69b67a2874bf2aaf780d557b78bf;
  0x1d4874cfb3c398e3f66d4c1d9aa716fbf38056dac7a3496bfe8ab8b1337b4583f;
  0x194c3c27d65c360bf52fac9d491076cbf0dd54a4e49e1763fd0b94c06a6ed633f;
  0x1e84b1b0de233683ffa7dbc1b08e17dbf75aa2a251f0963bf94d38a1aabe09bbf;
  0x168f80f630f307ebfa5672d86df8e7f3f39bd5697d1229e3f226f8a08642987bf;
  0x1ceffba81f726783f04aae9c25810973f6717a6d1e9b981bf7c58418660f4693f;
  0x1dc3eb34ff9b2753f00f274736cb681bf68d4c1d9aa716fbf38056dac7a3496bf;
  0x1f0ab8b1337b4583f768a08e40bef6b3f5052b35c74fd64bf9fcc91edee018dbf;
  0x167d4c1d9aa716fbf37056dac7a3496bfe4ab8b1337b4583f384410449b4b67bf;
  0x100ea115be498773fb8d435c4518d8c3f057ae9c7f7f95abfa48b21a71b4896bf;
  0x116c7a17f17557bbfa7a35a766a175e3fb86b4a9c3f7b6ebfaa0d0eaedc7082bf;
  0x1ce4529fd48605cbf88404681dc0984bf48c33e1e2e4b463fb1241cb97864503f;
  0x10387bf390e8a6bbf39c840d05334a43f39223024c81df53e0225dc146ccf11bf;
  0x1fcdd95bbc075493f5df5e24fbaf850bfd5e2f87df0666c3f37e1fc072459a5bf;
  0x12278cb604a67113f5ad99cd2de3c2dbf4312ae275573653f24899213f571583f;
  0x12403c32ce86b74bf58ba2c01e101af3f96d5cc20e9111b3fe4cb14549db033bf;
  0x1946254b4f5967c3f347d089f217dc03e603871bda7fcd7be1499f7a81b6a213f;
  0x133a736666c7933bf7b248516934b503fd283c7e50e7f88bf39223024c81df53e;
  0x10025dc146ccf11bffbdd95bbc075493fd7bb23ff0dca413f6c1eeb5ec63b5ebf;
  0x1d08cbc6e8b91943f39223024c81df53e0025dc146ccf11bffbdd95bbc075493f;
  0x19ba82380d6e90dbfb5b581bb57082b3fc627bcb191fc55bf6c01c433f498fbbe;
  0x1243894ee898d173fe0a960dfdd1d4fbfa6a9e93bb3112abf26b0fdb5fb8e473f;
  0x1944e9b6a382973bf3834d35361e3003f954fb194f97c1cbfb0981e6db35c543f;
  0x13ae0e484379f723fc85b992b8dc77d3f1038c31b11fe8dbf18cf7e6374dc6abf;
  0x1e6d44adc8ab695bf1c614e1d6f8a533f1f812c006e6d5f3f18ffb309b8b2703f;
  0x1721b606dc0e176bf2f578eab8309623f0291df2127d86c3f43bbafd1f40c7dbf;
  0x198fc3db2f6795e3fbaaa232b81169b3f72d850a048e97f3f4ce18a0396167cbf;
  0x182693fdac4a39ebf4f410cf81c73863f75938064d2de743f31d9220d28c4963f;
  0x1650f413047ae80bf8a2e3a7ece1b68bf2772cfeb709e79bf8e46f791988d813f;
  0x118cf7e6374dc6abfe5d44adc8ab695bf20614e1d6f8a533f1ed93f2faf9069bf;
  0x1e03568c8bded5f3facd5e75632ee8c3f18cf7e6374dc6abfe6d44adc8ab695bf;
  0x118614e1d6f8a533f22d40c453c0d653fa0e70ce56f9376bfc50d4c7e20858cbf;
  0x19002be978c8455bf649721f98e5e95bf76e64360d9cc7bbfad87998d49715bbf;
  0x19c002c0df26d6d3f080cac12cb96823fb9cf721d21b457bf10e7e628232983bf;
  0x1188e493b663e413f5082c8f2cdea71bf1f006cd9a753803f39015b80114c7f3f;
  0x125d9ad9c28f1693fc8837f39a2cc9b3fe8c7abe9232d6bbf7fe041112bee403f;
  0x1f2a2241b686a853fc051961c1ba81cbfc4c4d3bf4925913f7f2d716ed1ef983f;
  0x1324b9950e6638d3f5b8016de87056dbfe180bc7b0df9aebfb728d86aedf67d3f;
  0x1618faff439e3733f84919bbd1f6ca63fc864d19c06d754bf8d15f1015b988c3f;
  0x1f4364ebc44e6a33f98f007e835f0903f125e11fb595d5d3f65209eae83cc5d3f;
  0x1d19120c249c06abf25d9ad9c28f1693fc7837f39a2cc9b3feac7abe9232d6bbf;
  0x14c3c978cbd5d673f6bb885dad7f67b3fa3a623ead02e82bfa1d5211212f9693f;
  0x1d291d7fa6fcf9b3f2e5c32b6ca2a6bbf1463b8e690e270bf470e7f36b697713f;
  0x141cf005b743f863fd0d2cb033c86afbf13f64cb7b39c9c3fcd15fed1ce5aa73f;
  0x13d4d8204ac15623f09d5adbebc20573f887a49bba1fa773ff47e2ab83bc7563f;
  0x1bf73a9569bba7dbf8465c05293f251bf0d10c603f7f130bf979f3e00d80b48bf;
  0x13c1173412d2e14bfa9d76099a4aff9be48660fef7fdaeabedeb896372d8fe23e;
  0x1b2812727391557bfd60aa5bdb1a258bff8f52b75f70b333facd554310b2a94bf;
  0x16bbc70bd439dacbf8c44fae9970378bffdd5861594d4323f71a0f979bbb14a3f;
  0x17a9f72990f5d163ff9755a7c12cf323f786a569271af4a3f249802611563163f;
  0x13d388fe5612b94bfcb8b554f9d9dacbfacba94ada80178bfcc38a42a4bcd543f;
  0x1a18d9ee77c33563fa084fad3232a31bfa9d76099a4aff9be48660fef7fdaeabe;
  0x1dfb896372d8fe23ef06f66e785f9303f7e66b13efc0e483fe24176ede825143f;
  0x18e155f535fa4fdbe6bdabf5745a4f8be48002bbef935e03eb9bf9f9fce8c5b3f;
  0x18e6c57be59cd4c3f0ba4c799f2e743bfafac7becd902b03f5bd2e47ac3067a3f;
  0x15333bfbd57d09ebfdda3be8829925ebfb2fceb9bdaf54fbfd9e780a1ba16463f;
  0x10103cb04c1b7c83eff4183314f8cc43e866731281f09abbe797b5f11fab732bf;
  0x1521e9918b6eb8abfb033b71ef5eb583fc0d287b19a1001bf4008e6879cc075bf;
  0x1e0d5dcaaf1ff3abf45459ea873624bbf249d0190001d8cbfdd92d9b52ae4803f;
  0x1562d9bcf3447443fd2ef80bddf299d3f54ece7227cff6abfab47b52601a0583f;
  0x17ba0b8ca41cfa03fd2b3e41262d18bbfee8722eddb08543f396326db16628abf;
  0x1b2b5063e578a91bf6678c696ce593b3fe1989699440272bff10a609d1df277bf;
  0x1fcdbf1883f41213f484b98e7cab6613ff963fecf444955bfb8d287b19a1001bf;
  0x13f08e6879cc075bfe8d5dcaaf1ff3abf4e7285669ed7223f61f559542e7c84bf;
  0x15945ac99d82b6bbfb8d287b19a1001bf4008e6879cc075bfecd5dcaaf1ff3abf;
  0x1dabf6093ac642abf9e9798b37ac1433fa2fb45a09e32653fc173888c3c193c3f;
  0x1f8f2a3f792288cbf8ce3b372e8677ebf42f7945da2f1543f109542fc895a6fbf;
  0x15d8f97aa31d290bf84c4df1036691a3f054bf37138d5903f9429d817bfe4543f;
  0x1ebac5ff35763383fbc2dddb4d65756bf3f6e8324ccc5763fcf6e9dacd72e263f;
  0x1975ca9679d5244bf5d9b28635bb5643f5068b66a84f028bf18c0797b2ad9463f;
  0x1c2e06612684967bfa54b36c9aaab203faba62553a58b3ebf4d7eadaff8215f3f;
  0x1e9907f22d2401cbf484312c516e2393f0d90158f985b5abf7b44685e9f21403f;
  0x1d6b373ffab8e5dbffca2b259581f7e3feb5bb78d480c2d3f8729d115b89c4abf;
  0x11444ae16fa1e6b3f26d57d69c06c30bf0e08a1935a184e3fd7053ea331ac6ebf;
  0x1d16e9dacd72e263f985ca9679d5244bf5e9b28635bb5643f1885c80a909b21bf;
  0x176c0efa1ae21403fdd28d060dc7260bfd16e9dacd72e263f985ca9679d5244bf;
  0x15f9b28635bb5643fefc4433920f9123fcd7202fb0d6231bfeaceb1261dbc513f;
  0x136c34e0dd30b17bf968d59bbf71c353f5c5cf017578155bfdf39d3f715cf0c3f;
  0x1486e5594fc642abf006f64acbbed4a3f902002893bc108bf68ac7cd8caad263f;
  0x1df09af7dfb1b47bf0ded69b67a28743f2aaf780d557b783fd4874cfb3c398ebf;
  0x166d4c1d9aa716f3f38056dac7a34963fe8ab8b1337b458bf94c3c27d65c3603f;
  0x152fac9d491076c3f0dd54a4e49e176bfd0b94c06a6ed63bfe84b1b0de23368bf;
  0x1fa7dbc1b08e17d3f75aa2a251f09633f94d38a1aabe09b3f68f80f630f307e3f;
  0x1a5672d86df8e7fbf39bd5697d1229ebf226f8a086429873fceffba81f72678bf;
  0x104aae9c2581097bf6717a6d1e9b9813f7c58418660f469bfdc3eb34ff9b275bf;
  0x100f274736cb6813f68d4c1d9aa716f3f38056dac7a34963ff0ab8b1337b458bf;
  0x1768a08e40bef6bbf5052b35c74fd643f9fcc91edee018d3f67d4c1d9aa716f3f;
  0x137056dac7a34963fe4ab8b1337b458bf384410449b4b673f00ea115be49877bf;
  0x1b8d435c4518d8cbf057ae9c7f7f95a3fa48b21a71b48963f16c7a17f17557b3f;
  0x1a7a35a766a175ebfb86b4a9c3f7b6e3faa0d0eaedc70823fce4529fd48605c3f;
  0x188404681dc09843f48c33e1e2e4b46bf0d10c603f7f1303f979f3e00d80b483f;
  0x13c1173412d2e143fa9d76099a4aff93e48660fef7fdaea3edeb896372d8fe2be;
  0x1b28127273915573fd60aa5bdb1a2583ff8f52b75f70b33bfacd554310b2a943f;
  0x16bbc70bd439dac3f8c44fae99703783ffdd5861594d432bf71a0f979bbb14abf;
  0x17a9f72990f5d16bff9755a7c12cf32bf786a569271af4abf24980261156316bf;
  0x13d388fe5612b943fcb8b554f9d9dac3facba94ada801783fcc38a42a4bcd54bf;
  0x1a18d9ee77c3356bfa084fad3232a313fa9d76099a4aff93e48660fef7fdaea3e;
  0x1dfb896372d8fe2bef06f66e785f930bf7e66b13efc0e48bfe24176ede82514bf;
  0x18e155f535fa4fd3e6bdabf5745a4f83e48002bbef935e0beb9bf9f9fce8c5bbf;
  0x18e6c57be59cd4cbf0ba4c799f2e7433fafac7becd902b0bf5bd2e47ac3067abf;
  0x15333bfbd57d09e3fdda3be8829925e3fb2fceb9bdaf54f3fd9e780a1ba1646bf;
  0x10103cb04c1b7c8beff4183314f8cc4be866731281f09ab3e9de7c11d352c79bf;
  0x12ea4fd925bec813f4067ec4bc1762e3f81bd355d52e36bbfbc2447fb282f9dbf;
  0x1fd1a7bb45f33793f9fd77f92f9e366bf0c40394324a1733fca220fe0c4d6753f;
  0x19035db8065ce91bf6c27c18f4d4f99bf020c2d7ad2ac87bf190fb713a8fb5fbf;
  0x1a905f79f556dadbfad0d899cec39813f54dcb2902ec8773f9a0e86c5e9bda63f;
  0x19c7b51f4b90888bf9af96f7ef2878abf778d1986b1e2a3bfb0f4d504fa2e8dbf;
  0x154ea37771847743f67ce03afa39c663fd05f5bcb92f0583f83bd355d52e36bbf;
  0x1bc2447fb282f9dbfff1a7bb45f33793fe89edec064196d3f61ff2004b5657a3f;
  0x1dee5c7178f0679bffeb9a9d23beb6bbfc5329fbcf6319dbf1e65be1a3332793f;
  0x1819e95e8a66652bf9bf7d6f91d087d3fe438438b6f63823f2962c1267a73af3f;
  0x14de21c4dae419cbf05645dc964b1a8bfb4d88d3a7a2650bf6b0ed9db917b73bf;
  0x10934bd4ce435783f923a35e7dd2862bfe0d9363b56ed7c3f52b0897f1b09563f;
  0x1066f1f298efc243f56a66d36a99a89bf589793ffba2f513f23d68f1dc60d22bf;
  0x1adb3a29f0309773f96394db1bcb4463fba7e2194df9e2ebf98811e630f1e87bf;
  0x10a61f8c301567f3f7f14a2e88b6e383f0ea676bcb6ce9dbfcab835500402643f;
  0x1fcb3b23851c1223f9d36fae88ff49e3f7f777bad6b7188bfa59b5dd0809d523f;
  0x19bdff49d6e2185bfec353bae615691bf6a38b75dd0aa3cbfdf2c9f653a45703f;
  0x123fc17030db37a3f42bcf2edb940043fe5c509d58d945e3fa697f560dab954bf;
  0x123d68f1dc60d22bfadb3a29f0309773f96394db1bcb4463fd04b7a19325b383f;
  0x11e99fe146ddc82bfaa494b7411826ebf24d68f1dc60d22bfacb3a29f0309773f;
  0x19c394db1bcb4463f0f16cda3c8f422bfc0ff8aba9f4d0fbfec36310dee26653f;
  0x1abd4186a082c47bf61305e62144a8a3fe4362df0267f813f9e27980201a94c3f;
  0x1001d7a19f7a9373f4cfd2007ecfa8fbf75a62c23ae8c3a3fa138efaa02f090bf;
  0x1c21ffdda0ab260bfb7f0942eb4654a3f9afd408d694068bf2a7da73b0e718b3f;
  0x191d92e1fdb0635bfc30a396f2151533fd90b26efa1d375bf16a7a42cd4003cbf;
  0x11a0dd6a414ba593f68ef69debd1a7dbfca9948a98fd52fbf30c4375f223f4d3f;
  0x1e8867739fd8b70bf8b3697c2dacc2dbfd8c41907c35f4b3f8bb48a053acf6ebf;
  0x1212fa3a40731513fcfe641c178966fbfc1be7fb96fdc913fb5a6671ce1bf3abf;
  0x138229e702993583f3dfc4c4a95ca7bbfdcaa50eab61042bf2f13ad79c698603f;
  0x12a7f619f94c682bf91d92e1fdb0635bfc30a396f2151533fd90b26efa1d375bf;
  0x16e7fc41873b430bf1bb4c5fa53b24e3f82358065ae6b71bf8fd92e1fdb0635bf;
  0x1c20a396f2151533fd80b26efa1d375bfc688e74881ad1b3f94a05078326f39bf;
  0x1c29e4e603c0d5d3fdab70e9f151a273f0f9e518fd53845bffe3be4e7c3ec673f;
  0x1e84adc6daa73153f6c8d14768bb633bfd92063e64684563fa1b3868f32aa153f;
  0x14280048230e733bfaaeaaa21307d563f797b5f11fab7323f521e9918b6eb8a3f;
  0x1b033b71ef5eb58bfc0d287b19a10013f4008e6879cc0753fe0d5dcaaf1ff3a3f;
  0x145459ea873624b3f249d0190001d8c3fdd92d9b52ae480bf562d9bcf344744bf;
  0x1d2ef80bddf299dbf54ece7227cff6a3fab47b52601a058bf7ba0b8ca41cfa0bf;
  0x1d2b3e41262d18b3fee8722eddb0854bf396326db16628a3fb2b5063e578a913f;
  0x16678c696ce593bbfe19896994402723ff10a609d1df2773ffcdbf1883f4121bf;
  0x1484b98e7cab661bff963fecf4449553fb8d287b19a10013f3f08e6879cc0753f;
  0x1e8d5dcaaf1ff3a3f4e7285669ed722bf61f559542e7c843f5945ac99d82b6b3f;
  0x1b8d287b19a10013f4008e6879cc0753fecd5dcaaf1ff3a3fdabf6093ac642a3f;
  0x19e9798b37ac143bfa2fb45a09e3265bfc173888c3c193cbff8f2a3f792288c3f;
  0x18ce3b372e8677e3f42f7945da2f154bf109542fc895a6f3f5d8f97aa31d2903f;
  0x184c4df1036691abf054bf37138d590bf9429d817bfe454bf066f1f298efc24bf;
  0x156a66d36a99a893f589793ffba2f51bf23d68f1dc60d223fadb3a29f030977bf;
  0x196394db1bcb446bfba7e2194df9e2e3f98811e630f1e873f0a61f8c301567fbf;
  0x17f14a2e88b6e38bf0ea676bcb6ce9d3fcab83550040264bffcb3b23851c122bf;
  0x19d36fae88ff49ebf7f777bad6b71883fa59b5dd0809d52bf9bdff49d6e21853f;
  0x1ec353bae6156913f6a38b75dd0aa3c3fdf2c9f653a4570bf23fc17030db37abf;
  0x142bcf2edb94004bfe5c509d58d945ebfa697f560dab9543f23d68f1dc60d223f;
  0x1adb3a29f030977bf96394db1bcb446bfd04b7a19325b38bf1e99fe146ddc823f;
  0x1aa494b7411826e3f24d68f1dc60d223facb3a29f030977bf9c394db1bcb446bf;
  0x10f16cda3c8f4223fc0ff8aba9f4d0f3fec36310dee2665bfabd4186a082c473f;
  0x161305e62144a8abfe4362df0267f81bf9e27980201a94cbf001d7a19f7a937bf;
  0x14cfd2007ecfa8f3f75a62c23ae8c3abfa138efaa02f0903fc21ffdda0ab2603f;
  0x154ae37ad5e8c53bfa34c3a7071fca4bf63bcb0f223cd9f3f057726862b1e2bbf;
  0x10ec79266c72846bf8812a6e6e034423fc0db1de8fd7f37bfbea736e2ae8f8abf;
  0x1e3c7ddc52afa833fb481de0a58a04f3f8a03d8322bc950bf10ec50bd99b20d3f;
  0x197fccf41b676573f43005fd98c2bb53f785e374e779995bf2ed4b7e65127453f;
  0x185e94b978e3eacbff4f4cc2a0b0f94bf64ce8fa1c9c7313fce74dc176ab96ebf;
  0x18c6707b576da60bf9070f49eea385bbf7e8f5ee4c221a43f6bcc33d38e55833f;
  0x1027726862b1e2bbf06c79266c72846bf8412a6e6e034423f6e2f90873fb365bf;
  0x15853c1ac0599893f04569950386d853f047726862b1e2bbf16c79266c72846bf;
  0x18712a6e6e034423f6f6b7014644c57bfdb5685d282ef8d3f6093bd957ceaa23f;
  0x108ddd5f8476d3abf1de32d48e8734a3f7a4d1af629ca6b3f0ed2e6fb5edd573f;
  0x102f2e6c28dc1743f21edfbd3825b98bf7e9a163a73bc363f2473707ed454563f;
  0x13cabfc1b4151513f5930e09dfc1c533fc8b60fd6c3988f3f2aa4026529208bbf;
  0x1b0dab86b9707c93ec80392f53057533fd09411d94a83193ff4224412a8563dbf;
  0x1d82c37b9a8a68bbfd5539f81853f713f0cf0965e50a1ff3e34d7196bf9243a3f;
  0x19bc01100e27136bf50fcca4c15a1453fd61cfd5e2ec596bf7c6545c4f9a386bf;
  0x1fbc8d7ddc1894a3f7b79d5afbcf5a23f90d27976364479bf31dd6ffbb248013f;
  0x142d13eea5eb2583fbe2bbef2ac7430bf05784232bb1747bf6cebb45eb3c395bf;
  0x16e48ba1c06277b3fa8dab86b9707c93ec80392f53057533fd49411d94a83193f;
  0x10f365c70c5cc52bfeeebd980d81980bfc252b2dc37678c3fa8dab86b9707c93e;
  0x1c80392f53057533fd89411d94a83193fb60101710cea513f117bee9953b28bbf;
  0x10da063eece0190bfd809ff190d1e003f30b3510690f652bf8751cec2735441bf;
  0x18667ebcf6bc2463fedeebbde029881bfbd8769d3205684bfa05246c2ac80b7be;
  0x1765b788f202942bf80534e35d4f407bf2630c7fdaaf019bf0871a416b2ae16bf;
  0x13a7b957ca8368fbf1b23177a81a0013f6894af1a870929bff9ecd2cb0c6138bf;
  0x1344beb20b13d31bfd1ae6d423dda573fa88c4289f0a95f3fc09d01e7c9e7cebe;
  0x14005ac932e06cbbe9bfc94e6179842bf5472a769563c3dbfe49a64bf7350653f;
  0x139eea74035287b3ffea970b6a59b4d3f550583b67bc074bf0b04ad47400181bf;
  0x10e8aeec7e14135bf51689c754ccc5d3f680fcf1eeb6a683ffabe51fc7ac7643f;
  0x1941b895f60bf8cbf0bb8d7e3ba1493bf1a23177a81a0013f6794af1a870929bf;
  0x1f8ecd2cb0c6138bf8af5aa3441a9713ff5fa9f4ae46b98bf226332acfa0fa0bf;
  0x11b23177a81a0013f6894af1a870929bff8ecd2cb0c6138bf1c4194ddc035f2be;
  0x1fad47dd1520642bf60a068a7f88790bfdf18b337c8aa183f2da6e68fb16e42bf;
  0x13f49335484905cbfdafc1412ec37be3e3190a10337e90d3fae2f8af8b86e5b3f;
  0x1d38620341204253f523ee68ccfd94dbf904e7418f1105dbf5930e09dfc1c53bf;
  0x1c8b60fd6c3988fbf2aa4026529208b3fb0dab86b9707c9bec80392f5305753bf;
  0x1d09411d94a8319bff4224412a8563d3fd82c37b9a8a68b3fd5539f81853f71bf;
  0x10cf0965e50a1ffbe34d7196bf9243abf9bc01100e271363f50fcca4c15a145bf;
  0x1d61cfd5e2ec5963f7c6545c4f9a3863ffbc8d7ddc1894abf7b79d5afbcf5a2bf;
  0x190d279763644793f31dd6ffbb24801bf42d13eea5eb258bfbe2bbef2ac74303f;
  0x105784232bb17473f6cebb45eb3c3953f6e48ba1c06277bbfa8dab86b9707c9be;
  0x1c80392f5305753bfd49411d94a8319bf0f365c70c5cc523feeebd980d819803f;
  0x1c252b2dc37678cbfa8dab86b9707c9bec80392f5305753bfd89411d94a8319bf;
  0x1b60101710cea51bf117bee9953b28b3f0da063eece01903fd809ff190d1e00bf;
  0x130b3510690f6523f8751cec27354413f8667ebcf6bc246bfedeebbde0298813f;
  0x1bd8769d32056843fa05246c2ac80b73e765b788f2029423f80534e35d4f4073f;
  0x1263c6c374f3a9dbf3a6d96c4b83990bfb0966c51eb05703f492de09d1a9a533f;
  0x1dfa6cee32f43693f2d930b27ac5635bf979269a01f8e93bfeda54759d71d9bbf;
  0x116c053229024923f74eb47d9195b5ebf2dae8a1920f059bf00b7bd8ea668483f;
  0x1d716d76e8b188d3f2e223343bb609ebf168448a560789cbf9484d768759b883f;
  0x1846dc8e3fa7c9a3f28cb9697eb9d96bfccc2ba5c6ea937bf427eccd1d9205f3f;
  0x13c5aeb36243a343f6c20807634bf833fc05144f0e5c78cbf60ee4ddcf0544cbf;
  0x1492de09d1a9a533fdfa6cee32f43693f2a930b27ac5635bf519d07bfef8891bf;
  0x1f0455dcb9951a9bf7658bea85b6c8a3f492de09d1a9a533fdfa6cee32f43693f;
  0x129930b27ac5635bf04ca487940a2753fb7461db162f9823f9b6db2648d7a85bf;
  0x1adf8bc2928db523fbc5925f00b9f5d3fc0bcdfb125e23cbfa39e15496f137cbf;
  0x184c67dc2af6da9bfb7322abdada993bfbf3a1942be7048bf3896abf57c885cbf;
  0x1b81390e628972c3f2c3f4a011f6c9e3f4f24cf570d03a03fc177dc868f9191bf;
  0x1dc502ad2968d53bff6490bd22e2f5fbf61f84fdd7eb73b3f0b822000c518933f;
  0x1021f58f905958a3f42d6d7835da98bbf3447c21a9fd95e3ffd91283aaf3c603f;
  0x1a74b63c7cbd051bf12670a1a7abe8bbf6215d890336e7e3f58d125c36326913f;
  0x10408fa4ad9f286bfe40ac5f7fcdc863f8456f8f9dd4c903f72be28bc84d2393f;
  0x101b4369eebb939bffdc2d494685742bfec47a429b03085bf300a4b9a017f7dbf;
  0x13a064438a4b17e3fdc502ad2968d53bff6490bd22e2f5fbf5ff84fdd7eb73b3f;
  0x1f0d90168235c903ff5ca26ab234ba53fc0a43f3fc3ad4f3fdc502ad2968d53bf;
  0x1f6490bd22e2f5fbf5ff84fdd7eb73b3f9789085dbd2771bfe4e08525db5597bf;
  0x1fea429f0201275bf5e00edc0375a52bf76863bfbcd4a68bf3899f34e071b17bf;
  0x1940b13c3bceb7e3fc9cace0aaf07a53fb1ddeaa63afd823f9617b8ebfd64483f;
  0x17d68efadec73533f4cd4f1f92e4a31bfb1241cb9786450bf0387bf390e8a6b3f;
  0x139c840d05334a4bf39223024c81df5be0225dc146ccf113ffcdd95bbc07549bf;
  0x15df5e24fbaf8503fd5e2f87df0666cbf37e1fc072459a53f2278cb604a6711bf;
  0x15ad99cd2de3c2d3f4312ae27557365bf24899213f57158bf2403c32ce86b743f;
  0x158ba2c01e101afbf96d5cc20e9111bbfe4cb14549db0333f946254b4f5967cbf;
  0x1347d089f217dc0be603871bda7fcd73e1499f7a81b6a21bf33a736666c79333f;
  0x17b248516934b50bfd283c7e50e7f883f39223024c81df5be0025dc146ccf113f;
  0x1fbdd95bbc07549bfd7bb23ff0dca41bf6c1eeb5ec63b5e3fd08cbc6e8b9194bf;
  0x139223024c81df5be0025dc146ccf113ffbdd95bbc07549bf9ba82380d6e90d3f;
  0x1b5b581bb57082bbfc627bcb191fc553f6c01c433f498fb3e243894ee898d17bf;
  0x1e0a960dfdd1d4f3fa6a9e93bb3112a3f26b0fdb5fb8e47bf944e9b6a3829733f;
  0x13834d35361e300bf954fb194f97c1c3fb0981e6db35c54bfebac5ff3576338bf;
  0x1bc2dddb4d657563f3f6e8324ccc576bfcf6e9dacd72e26bf975ca9679d52443f;
  0x15d9b28635bb564bf5068b66a84f0283f18c0797b2ad946bfc2e066126849673f;
  0x1a54b36c9aaab20bfaba62553a58b3e3f4d7eadaff8215fbfe9907f22d2401c3f;
  0x1484312c516e239bf0d90158f985b5a3f7b44685e9f2140bfd6b373ffab8e5d3f;
  0x1fca2b259581f7ebfeb5bb78d480c2dbf8729d115b89c4a3f1444ae16fa1e6bbf;
  0x126d57d69c06c303f0e08a1935a184ebfd7053ea331ac6e3fd16e9dacd72e26bf;
  0x1985ca9679d52443f5e9b28635bb564bf1885c80a909b213f76c0efa1ae2140bf;
  0x1dd28d060dc72603fd16e9dacd72e26bf985ca9679d52443f5f9b28635bb564bf;
  0x1efc4433920f912bfcd7202fb0d62313feaceb1261dbc51bf36c34e0dd30b173f;
  0x1968d59bbf71c35bf5c5cf0175781553fdf39d3f715cf0cbf486e5594fc642a3f;
  0x1006f64acbbed4abf902002893bc1083f68ac7cd8caad26bfdf09af7dfb1b473f;
  0x1b7f0942eb4654abf9afd408d6940683f2a7da73b0e718bbf91d92e1fdb06353f;
  0x1c30a396f215153bfd90b26efa1d3753f16a7a42cd4003c3f1a0dd6a414ba59bf;
  0x168ef69debd1a7d3fca9948a98fd52f3f30c4375f223f4dbfe8867739fd8b703f;
  0x18b3697c2dacc2d3fd8c41907c35f4bbf8bb48a053acf6e3f212fa3a4073151bf;
  0x1cfe641c178966f3fc1be7fb96fdc91bfb5a6671ce1bf3a3f38229e70299358bf;
  0x13dfc4c4a95ca7b3fdcaa50eab610423f2f13ad79c69860bf2a7f619f94c6823f;
  0x191d92e1fdb06353fc30a396f215153bfd90b26efa1d3753f6e7fc41873b4303f;
  0x11bb4c5fa53b24ebf82358065ae6b713f8fd92e1fdb06353fc20a396f215153bf;
  0x1d80b26efa1d3753fc688e74881ad1bbf94a05078326f393fc29e4e603c0d5dbf;
  0x1dab70e9f151a27bf0f9e518fd538453ffe3be4e7c3ec67bfe84adc6daa7315bf;
  0x16c8d14768bb6333fd92063e6468456bfa1b3868f32aa15bf4280048230e7333f;
  0x1aaeaaa21307d56bf2630c7fdaaf0193f0871a416b2ae163f3a7b957ca8368f3f;
  0x11b23177a81a001bf6894af1a8709293ff9ecd2cb0c61383f344beb20b13d313f;
  0x1d1ae6d423dda57bfa88c4289f0a95fbfc09d01e7c9e7ce3e4005ac932e06cb3e;
  0x19bfc94e61798423f5472a769563c3d3fe49a64bf735065bf39eea74035287bbf;
  0x1fea970b6a59b4dbf550583b67bc0743f0b04ad474001813f0e8aeec7e141353f;
  0x151689c754ccc5dbf680fcf1eeb6a68bffabe51fc7ac764bf941b895f60bf8c3f;
  0x10bb8d7e3ba14933f1a23177a81a001bf6794af1a8709293ff8ecd2cb0c61383f;
  0x18af5aa3441a971bff5fa9f4ae46b983f226332acfa0fa03f1b23177a81a001bf;
  0x16894af1a8709293ff8ecd2cb0c61383f1c4194ddc035f23efad47dd15206423f;
  0x160a068a7f887903fdf18b337c8aa18bf2da6e68fb16e423f3f49335484905c3f;
  0x1dafc1412ec37bebe3190a10337e90dbfae2f8af8b86e5bbfd3862034120425bf;
  0x1523ee68ccfd94d3f904e7418f1105d3f2c3f4a011f6c9ebf4f24cf570d03a0bf;
  0x1c177dc868f91913fdc502ad2968d533ff6490bd22e2f5f3f61f84fdd7eb73bbf;
  0x10b822000c51893bf021f58f905958abf42d6d7835da98b3f3447c21a9fd95ebf;
  0x1fd91283aaf3c60bfa74b63c7cbd0513f12670a1a7abe8b3f6215d890336e7ebf;
  0x158d125c3632691bf0408fa4ad9f2863fe40ac5f7fcdc86bf8456f8f9dd4c90bf;
  0x172be28bc84d239bf01b4369eebb9393ffdc2d4946857423fec47a429b030853f;
  0x1300a4b9a017f7d3f3a064438a4b17ebfdc502ad2968d533ff6490bd22e2f5f3f;
  0x15ff84fdd7eb73bbff0d90168235c90bff5ca26ab234ba5bfc0a43f3fc3ad4fbf;
  0x1dc502ad2968d533ff6490bd22e2f5f3f5ff84fdd7eb73bbf9789085dbd27713f;
  0x1e4e08525db55973ffea429f02012753f5e00edc0375a523f76863bfbcd4a683f;
  0x13899f34e071b173f940b13c3bceb7ebfc9cace0aaf07a5bfb1ddeaa63afd82bf;
  0x19617b8ebfd6448bf7d68efadec7353bf4cd4f1f92e4a313f403090719846a03f;
  0x1bec059999f10983f3bf54e02bea59a3fc5df0078f72755bf5ca24abb83455abf;
  0x169630e0aaa2960bf1ba6163d5e22913f9b35bb7e6fa7943f2e37ce100d2fb0bf;
  0x12334d93f63fb5d3f9d15c3ae73e0613fc04282a1294453bf7cad343ad3498abf;
  0x17fbcfb109fb4793f81a40193241db43f8d79d632c0ba81bf006bfc68a0f1213f;
  0x151aa9189202ba43f88cd4e787e201ebfc66b03265145613fb1700927f7294ebf;
  0x1be86b23f0e3f82bf68531cc1dbb691bf5b7c61e65470a2bfc4df0078f72755bf;
  0x15ca24abb83455abf68630e0aaa2960bf2912ad38bbee943fb394a4ba46bd913f;
  0x1ca4e28f542fa90bfc4df0078f72755bf5da24abb83455abf65630e0aaa2960bf;
  0x1f2b7dd442cbb70bf6e18680e425b98bf41c51e66b43f94bf1ce86716d3964fbf;
  0x111c4297ca4d46ebf22bcfa00f33853bf36f79b7d7fac7e3f652be733932ba53f;
  0x168274128da55813ffa205e276bdd4f3fe03af5175164033fc829f637b8bc20bf;
  0x188b4a9955ecc883fed11436b779d943f659bb043e87b9cbf4bec378831f277bf;
  0x1cc5ccd45fe1b6b3f84372fa4f738753ff6934351d7927c3f17ab1d047e49843f;
  0x1be2fa14d3da589bf646b08f0d4b5693f2c422f48ab945fbf28bcd681bde1693f;
  0x1f989dccf91d1723f4b1752878ec2a73fe8eca646971e913f11a57d702b8590bf;
  0x1c08596a53bb1aabf6cf1dbbfe3c1943f283183b639647b3f6eedc66c317087bf;
  0x180df0869394c50bfd6d8ba60b2b782bf3555be465b728abf4a74846fde0c923f;
  0x14bec378831f277bfcc5ccd45fe1b6b3f84372fa4f738753f3da997c6c46a68bf;
  0x1d8148f8f178f853f9eabbfc72721993f4bec378831f277bfc85ccd45fe1b6b3f;
  0x183372fa4f738753f48487017694648bf6cf0b2b6c2228abf32f7cda47b5996bf;
  0x18812b0e2f86c71bffea5023cdf4a7bbfd1bcc98b9d52833f1273e8b689d4413f;
  0x162a049feaf68873f0fc25500a2558f3feaf6fd7c9e125dbf2d05c1039c7d733f;
  0x1f6952d1bed03613ff54693c400b588bfd6df811fe0e089bf2d1ea0e7bb59913f;
  0x1962621f10213743f9b4d3d9370518d3f707b813943c560bf88a629f17fea7bbf;
  0x102d1d936c64384bf62eb78e87fa1803f902e97ea42f769bfb28fe78f69326bbf;
  0x1d5cfed3c0a3c723f0a25e6082ec776bf0ef22af93632a1bf6fca540c29e67bbf;
  0x1338de6699d55913f8815909cee6fa03f1b8500f4209890bf9e9f2c5d32be77bf;
  0x1b025f1b3998386bfbd0fa15fa8ba763ff6c2d7be0031823f1950cad434698a3f;
  0x1fe95ad72c8ac85bf962621f10213743f9b4d3d9370518d3f727b813943c560bf;
  0x14a8c3c04b188663f9a5497f6b4d58dbfb29182d2d8bb8abf962621f10213743f;
  0x19c4d3d9370518d3f6f7b813943c560bfb23e522bd6af423f7fb76ccccad9983f;
  0x15207ec778ae4873f32b709cc23806b3f37124a631510913f55afc78d6c19623f;
  0x18009b59022ad3cbf54715c444f1193bf8a2ffac5215582bfa910c2cf2185553f;
  0x18283ee9ffe6d6f3fa0ffcc8a78fa41bfc8926d16d15d07bf0888086e1db47ebf;
  0x170fa20b85844863faa2db6b874f94e3f67525812380c92bf97f3dc0eacac69bf;
  0x1b4ad3d03ec0a25bf0055680f35dfe6beb98850ca7a07723f08cbb0a37e5b003f;
  0x16498ff995f7e753fe92dd9fde82c7fbf89d84cc8e1ac4f3ff3949c385e418abf;
  0x1997423071a4a84bf3a041d2d3f0e4abf71e00c129a82943f45b16d2f0ba770bf;
  0x14f8cb4ca3a304dbf8f095c90e5f9963fddd75e059aa772bf0bbc623c34d6303f;
  0x100380ae8e34cf23e2ba5b6d8e8d97cbfaa2db6b874f94e3f67525812380c92bf;
  0x197f3dc0eacac69bf2ccfb1253c212e3f857f10ce3a8d703f8ac5fcbc768687bf;
  0x1aa2db6b874f94e3f67525812380c92bf97f3dc0eacac69bf562678b04b5a263f;
  0x1927e26e2d29087bf13e7afd16cce843f74b759e537674d3f6fd19228bb7a84bf;
  0x1a6a83baff8d887bf90726f74c3ef1bbf8c84de14dd737d3f0a25b77400017abf;
  0x10299efb4f2353e3f7723dca94d9a81bf1cacf4f09d0a59bff54693c400b5883f;
  0x1d6df811fe0e0893f2d1ea0e7bb5991bf962621f1021374bf9b4d3d9370518dbf;
  0x1707b813943c5603f88a629f17fea7b3f02d1d936c643843f62eb78e87fa180bf;
  0x1902e97ea42f7693fb28fe78f69326b3fd5cfed3c0a3c72bf0a25e6082ec7763f;
  0x10ef22af93632a13f6fca540c29e67b3f338de6699d5591bf8815909cee6fa0bf;
  0x11b8500f42098903f9e9f2c5d32be773fb025f1b39983863fbd0fa15fa8ba76bf;
  0x1f6c2d7be003182bf1950cad434698abffe95ad72c8ac853f962621f1021374bf;
  0x19b4d3d9370518dbf727b813943c5603f4a8c3c04b18866bf9a5497f6b4d58d3f;
  0x1b29182d2d8bb8a3f962621f1021374bf9c4d3d9370518dbf6f7b813943c5603f;
  0x1b23e522bd6af42bf7fb76ccccad998bf5207ec778ae487bf32b709cc23806bbf;
  0x137124a63151091bf55afc78d6c1962bf8009b59022ad3c3f54715c444f11933f;
  0x18a2ffac52155823fa910c2cf218555bf8283ee9ffe6d6fbfa0ffcc8a78fa413f;
  0x1aa47d115123690bfa9ae1f9deb4b83bfcad9a258f2ff7d3f0eb137cea34b6e3f;
  0x12c2a638f9902963f71c8b1e0711966bf3b80a950685174bfb41c508452cb7ebf;
  0x1a007751e1ecf713fc12ca642c8538a3f02166451061a943f3e05db623292863f;
  0x155b42f6b11c871bf60479215aef1abbf9e977636cfb96b3fed3b12cb979b8f3f;
  0x1c535c9ce8376a33ffb415a25612586bf0039f9b7f926703fbcdaffa04f82a43f;
  0x1ef115fb9ba04953fc63717b75d93963fd60c19a648279e3f3fb06628b7047bbf;
  0x10eb137cea34b6e3f2c2a638f9902963f72c8b1e0711966bfe840996e6799713f;
  0x128249c8b1b354a3f076cda965f1775bf10b137cea34b6e3f2c2a638f9902963f;
  0x170c8b1e0711966bff43702e9bb7d923f4c71943449e1a43f547459aede2c513f;
  0x17b6e2c10951aa8bf5341ab5a96bc843f8d60f9f6dcf4a63fa284f218087c643f;
  0x1f0066db3e84b9ebf2057771a3ab11a3f4090a9664b40723f769f9bf098ea84bf;
  0x1a01ee30f437773bf2ca72b9827b3633fdc45152a6c5e823f391bf4796ec6563f;
  0x1ba0cf08f338d3b3fe348985292f33e3f9844c2189d0e21bf6764af3aee3059bf;
  0x1bce2a42749b361bf827d0d92bb84353f23cd95ad343f8cbfcc0b4145a456aabf;
  0x172289209075480bf7ce95862e24f353f240146d1df48523fa4f374e36650243f;
  0x164e42b9926482c3f5d48057a4945503f3830b2f4f1c0283fb983bf29522985bf;
  0x1544493383659a8bfa7399435838582bfa6d4079b7b4a8abfd2f883b41d7992bf;
  0x1c2e185b13c75663fba0cf08f338d3b3fe348985292f33e3f9844c2189d0e21bf;
  0x12cdf06d30c4d61bf9d58bd7df3b181bf1cdcdb249f4258bfb70cf08f338d3b3f;
  0x1d948985292f33e3f9c44c2189d0e21bf2cd24557be2492bf49c7beccc3ed8bbf;
  0x1cff2b5a83f357f3f09a4f3f2f86ba93f821d02f492398d3f023068e2bf369ebf;
  0x19c680858716261bfb55ef54aacc25abfdfa45c0a0ae74d3fa725590f8a575cbf;
  0x18e77dccae0d65fbfa2891060e18b413fb8cfa21a52884b3f24d9396f2d0785bf;
  0x1b071cf822a91313f2c8dc830c106443f7368b19166c47cbf09cfe62a3cf45dbf;
  0x110ea0ffe8b9503bf66eaceb77a5e54bfbd1a979259987f3f75d40182db7263bf;
  0x1503e02913cb59d3fc05bc9b37fd148bf467078ee63b057bfb011014407fb933f;
  0x1b7c59dad921b82bf2e1b0366e465453f9ce2f0e53edf72bf21bb18936cf78ebf;
  0x113d18377998b393f58d2f43f9f8766bfe7630225f27b82bf90cc28c3838ce03e;
  0x11a8fdc2d4e36313f1558e5c5c3b25abf2d8dc830c106443f7468b19166c47cbf;
  0x108cfe62a3cf45dbfcc32d14f4c0b463f7a771d35b4287dbf048227cbe0a273bf;
  0x12c8dc830c106443f7368b19166c47cbf07cfe62a3cf45dbff55784e8b4be273f;
  0x1c4e8d5164f1166bf23ced572d258623ff54fabbf4eb84c3fe84359e9d88980bf;
  0x1b07c8a38b2f487bf96114bf39e194cbfa66fc04c771d8a3fed0f58d547b685bf;
  0x1984ef2b04ea456bf4e6c803c1843903f2dcec529daee703f8919a3f5451d413f;
  0x129efece999615fbf81d0997f274e803fb673a75db570263faa4c5154bd9244bf;
  0x1cfd82f8e365f653fead5829d0f5b32bf9e9a8a6125d4503f71233b99c37c71bf;
  0x1c3769232a494223ff2d5253cf10841bf6783aa01c7b3613fadce780f72001abf;
  0x170384eee3dd6373fb4c9c00dbab958bf51d35f7f4282443fcde2b2147acd62bf;
  0x1262a9f088889833f52381edcd4972a3f6aab645a786148bf3b06a45e5055693f;
  0x19f44f4a746ec35bfc71c8a016419543f97163e24c7e274bfb573a75db570263f;
  0x1a94c5154bd9244bfced82f8e365f653f86616c3c83fc1bbfb0af5f1fdda8393f;
  0x143f930e725b35abfb673a75db570263faa4c5154bd9244bfcfd82f8e365f653f;
  0x10bfb469a6b070a3fc82d05c1e9dd27bf73bd0611a3e1483f53b68e0ac28518bf;
  0x1163001284c7b363f6fcdc5d8355757bf0acc81742acb053fe3252650b9fb23bf;
  0x16c7632a82fd5443f1d831753610600bfd655fb781c621d3f4d0be67325863ebf;
  0x1c8926d16d15d073f0888086e1db47e3f70fa20b8584486bfaa2db6b874f94ebf;
  0x167525812380c923f97f3dc0eacac693fb4ad3d03ec0a253f0055680f35dfe63e;
  0x1b98850ca7a0772bf08cbb0a37e5b00bf6498ff995f7e75bfe92dd9fde82c7f3f;
  0x189d84cc8e1ac4fbff3949c385e418a3f997423071a4a843f3a041d2d3f0e4a3f;
  0x171e00c129a8294bf45b16d2f0ba7703f4f8cb4ca3a304d3f8f095c90e5f996bf;
  0x1ddd75e059aa7723f0bbc623c34d630bf00380ae8e34cf2be2ba5b6d8e8d97c3f;
  0x1aa2db6b874f94ebf67525812380c923f97f3dc0eacac693f2ccfb1253c212ebf;
  0x1857f10ce3a8d70bf8ac5fcbc7686873faa2db6b874f94ebf67525812380c923f;
  0x197f3dc0eacac693f562678b04b5a26bf927e26e2d290873f13e7afd16cce84bf;
  0x174b759e537674dbf6fd19228bb7a843fa6a83baff8d8873f90726f74c3ef1b3f;
  0x18c84de14dd737dbf0a25b77400017a3f0299efb4f2353ebf7723dca94d9a813f;
  0x11cacf4f09d0a593f2ca72b9827b363bfdc45152a6c5e82bf391bf4796ec656bf;
  0x1ba0cf08f338d3bbfe348985292f33ebf9844c2189d0e213f6764af3aee30593f;
  0x1bce2a42749b3613f827d0d92bb8435bf23cd95ad343f8c3fcc0b4145a456aa3f;
  0x1722892090754803f7ce95862e24f35bf240146d1df4852bfa4f374e3665024bf;
  0x164e42b9926482cbf5d48057a494550bf3830b2f4f1c028bfb983bf295229853f;
  0x1544493383659a83fa73994358385823fa6d4079b7b4a8a3fd2f883b41d79923f;
  0x1c2e185b13c7566bfba0cf08f338d3bbfe348985292f33ebf9844c2189d0e213f;
  0x12cdf06d30c4d613f9d58bd7df3b1813f1cdcdb249f42583fb70cf08f338d3bbf;
  0x1d948985292f33ebf9c44c2189d0e213f2cd24557be24923f49c7beccc3ed8b3f;
  0x1cff2b5a83f357fbf09a4f3f2f86ba9bf821d02f492398dbf023068e2bf369e3f;
  0x19c6808587162613fb55ef54aacc25a3fdfa45c0a0ae74dbfa725590f8a575c3f;
  0x18e77dccae0d65f3fa2891060e18b41bf9016e91d9eff693f5e3bc6c0997d833f;
  0x12a243d021f6a863fc0b5ac6e7b51543ff31065cb1e3e93bfcdef090e05c26abf;
  0x1164905b008eb583f2187612a6ec1943fe9f72095dbdb75bfc7370c39787888bf;
  0x108e6594bd1f29cbf12ee21de30f792bf98a2ecbde97572bfb02eaddaff62abbf;
  0x1743572a541757f3f2a1788f8feeb59bf822b4f0acc6ea53fee1c318551ed8b3f;
  0x1c5bd3d1c55a386bf726184794f559dbf6d5c3b3fdcf590bfdbeaec1500448abf;
  0x1c61d8b8e723394bf62ab2357c4fa6cbfc0b5ac6e7b51543ff31065cb1e3e93bf;
  0x1cdef090e05c26abf49ba65a758f959bf481b31d58d5c5e3f51f42967f5d187bf;
  0x1bfb5ac6e7b51543ff41065cb1e3e93bfceef090e05c26abf4ce9be669edf91bf;
  0x16f1c33b231249bbfae7a8867d4d7903f7b76b54f88bea93fe23b9a5f24fb77bf;
  0x1024db9085cd3a6bff6dc312d6b4d6cbfebee39fcb90a983f7fc94aaccab9883f;
  0x120a0e7cc31523dbf80d99e8a8b9f283f358d34f7a40a50bfba965c28b7a74abf;
  0x18639b54d3c7980bf69cd12293c98553f1f22538d5e74203ffafa712550db5a3f;
  0x100b45f83b6bcc13e9a318e35aa5e6abf8310f835b3fa96bf3d2c490cd19d843f;
  0x189242faf07b35dbf784ba858df5a92bffb7214cf980f683f41cc1b1d84c0773f;
  0x17d39104bef64a53fc25d279fbcd991bf99111f35e46d503f0e22f16aa95695bf;
  0x168968aaae9ee91bf49ae438b2e4026bfc412cfc544e66c3f0d4dcc18a149683f;
  0x192820599c306303f1e78123081ee5b3fc9f40ea3420f49bf1f22538d5e74203f;
  0x1fafa712550db5a3f00b45f83b6bcc13ea528c7e7657233bf8778b6a2cf6d7abf;
  0x1e56572d3a9e655bf1f22538d5e74203ff9fa712550db5a3f80b55f83b6bcc13e;
  0x16193f825596b18bf129807ac654e563fed58cfb71ecb553fc535ca69c186313f;
  0x1046a3cfb69bc843f7ead64bbde1b6c3f8cf10b73f716543fb3a3b17bed5992bf;
  0x1db480023eded91bfbcaec6dd01eb4abfcf2d62f1a7f785bf000beddb2404edbe;
  0x1b8cfa21a52884bbf24d9396f2d07853fb071cf822a9131bf2c8dc830c10644bf;
  0x17368b19166c47c3f09cfe62a3cf45d3f10ea0ffe8b95033f66eaceb77a5e543f;
  0x1bd1a979259987fbf75d40182db72633f503e02913cb59dbfc05bc9b37fd1483f;
  0x1467078ee63b0573fb011014407fb93bfb7c59dad921b823f2e1b0366e46545bf;
  0x19ce2f0e53edf723f21bb18936cf78e3f13d18377998b39bf58d2f43f9f87663f;
  0x1e7630225f27b823f90cc28c3838ce0be1a8fdc2d4e3631bf1558e5c5c3b25a3f;
  0x12d8dc830c10644bf7468b19166c47c3f08cfe62a3cf45d3fcc32d14f4c0b46bf;
  0x17a771d35b4287d3f048227cbe0a2733f2c8dc830c10644bf7368b19166c47c3f;
  0x107cfe62a3cf45d3ff55784e8b4be27bfc4e8d5164f11663f23ced572d25862bf;
  0x1f54fabbf4eb84cbfe84359e9d889803fb07c8a38b2f4873f96114bf39e194c3f;
  0x1a66fc04c771d8abfed0f58d547b6853f984ef2b04ea4563f4e6c803c184390bf;
  0x12dcec529daee70bfba965c28b7a74a3f8639b54d3c79803f69cd12293c9855bf;
  0x11f22538d5e7420bffafa712550db5abf00b45f83b6bcc1be9a318e35aa5e6a3f;
  0x18310f835b3fa963f3d2c490cd19d84bf89242faf07b35d3f784ba858df5a923f;
  0x1fb7214cf980f68bf41cc1b1d84c077bf7d39104bef64a5bfc25d279fbcd9913f;
  0x199111f35e46d50bf0e22f16aa956953f68968aaae9ee913f49ae438b2e40263f;
  0x1c412cfc544e66cbf0d4dcc18a14968bf92820599c30630bf1e78123081ee5bbf;
  0x1c9f40ea3420f493f1f22538d5e7420bffafa712550db5abf00b45f83b6bcc1be;
  0x1a528c7e76572333f8778b6a2cf6d7a3fe56572d3a9e6553f1f22538d5e7420bf;
  0x1f9fa712550db5abf80b55f83b6bcc1be6193f825596b183f129807ac654e56bf;
  0x1ed58cfb71ecb55bfc535ca69c18631bf046a3cfb69bc84bf7ead64bbde1b6cbf;
  0x18cf10b73f71654bfb3a3b17bed59923fdb480023eded913fbcaec6dd01eb4a3f;
  0x1cf2d62f1a7f7853f000beddb2404ed3ef90bd9d10b8a6abf89a764b171eba0bf;
  0x122740b21d1c19c3f8f941993d586583f2ac1b6dc811e6a3fd2dc0548c7456abf;
  0x19dd347b4cfee54bf9d3b1c8308d586bfd73e7113381b863fffb05b2e85b76dbf;
  0x1240fddc541048c3fdb5eacf54be867bfc0f6becda701753fc241498f9467b63f;
  0x16f4379e79dd094bf2a5f0cfa490a6abf51c350bb8b0cb0bf66acaba9d27a91bf;
  0x1c474ecf46406483f9eca9aa950948f3f74632e40b590973f90b478c5167d623f;
  0x16befd1a6dfd39b3f0cb48f307054983f8f941993d586583f26c1b6dc811e6a3f;
  0x1d2dc0548c7456abf032bea2323eb523f703a23f0cd18443fe21b452c17cba73f;
  0x18f941993d586583f28c1b6dc811e6a3fcfdc0548c7456abf22fa156a50cd3fbf;
  0x17b09c9d57e768b3fd930c27b9b4f973fdd3c68a6e506503fdaae5b06834e80bf;
  0x192e01798a8b197bf0c468b13c23e31bf2513823bc398763f43ae8689692693bf;
  0x11867cb358fdc61bf90dbed1d77804cbf4eefe3bebe8d8abf71ca578522a26c3f;
  0x1960eadfc46d58c3fe19dd4c27a6e8ebf842c37b0830648bf3ee7ce0933e781bf;
  0x1c0927e9673fd063f5f7dcf5ddfcb5fbfc501bda07e1f8abf0d4a870be30d773f;
  0x10e02a21791f143bf735a2c39301564bf8e586f723432653fb773158731a547bf;
  0x166ed5e09c1399bbf82ac869f287783bfae7a33167c40733fc5338283f17ba33f;
  0x1e1bbc2a3292184bfcab33a35419354bf64a996e9ccd284bf7cd48b5a6083653f;
  0x1226abf31ea6468bfe0dbad51a60a94bfc5e46954eeaf813f842c37b0830648bf;
  0x13ee7ce0933e781bf00937e9673fd063f9a3aca4b676065bf947a9597cccf6cbf;
  0x1a4ca4714b4528e3f842c37b0830648bf3ee7ce0933e781bf80927e9673fd063f;
  0x1240606461d084f3f1d7baab0eeb190bf21a25793931e8ebfd6f201f4bb22333f;
  0x1d2c49c4d2a7e823fd0bee8b4dffc673fa052ceb35639443fc8c4d69fd0c285bf;
  0x1f9c8e72923a183bf8565d352f134353f8b2597b6019b6f3f40fb1e07fa4af4be;
  0x18a03d36efffe2dbf30ce67bf6081453f277509a696d587bfd3dcd43bd469fcbe;
  0x16886b09d5332263fdfa5b22345e8553ff730b21e37ea03bfe2c3cf3b58d42c3f;
  0x1f6adfee2a13e563f5eb2b2aa86e2093fcdb584b7d18e22bf58225f655091643f;
  0x1720c4caf3d4b0cbf2ac2da962915383f8fc8320a62256d3f58965b1bd09b213f;
  0x1949fd6c5a7854abf87a627e2e17c77bfc8ef798ede55483f3d221bbdb45372bf;
  0x12bc3731df33aa0bfc43aaa8ce1e44f3f34e7ad25e01577bfcbb91dd606d0a1bf;
  0x1d1dcd43bd469fcbe6786b09d5332263fdea5b22345e8553f6d19a121b8fe5d3f;
  0x102cd06a5dbd885bffdc8abccaa41b1bfd1dcd43bd469fcbe6786b09d5332263f;
  0x1dea5b22345e8553f040b32f7657e38bf802cbbdabb96593fd3c1fae0156272bf;
  0x131210449e78d20bf1f8110554e17503f1f4044b95e76883ffc7908319296ee3e;
  0x1868a1c8da8f40fbf62f6206708f5263fa3c4ce23b6b736bf8dfc5e2f3ebf613f;
  0x150b5c9230884913f71ca578522a26cbf960eadfc46d58cbfe19dd4c27a6e8e3f;
  0x1842c37b08306483f3ee7ce0933e7813fc0927e9673fd06bf5f7dcf5ddfcb5f3f;
  0x1c501bda07e1f8a3f0d4a870be30d77bf0e02a21791f1433f735a2c393015643f;
  0x18e586f72343265bfb773158731a5473f66ed5e09c1399b3f82ac869f2877833f;
  0x1ae7a33167c4073bfc5338283f17ba3bfe1bbc2a32921843fcab33a354193543f;
  0x164a996e9ccd2843f7cd48b5a608365bf226abf31ea64683fe0dbad51a60a943f;
  0x1c5e46954eeaf81bf842c37b08306483f3ee7ce0933e7813f00937e9673fd06bf;
  0x19a3aca4b6760653f947a9597cccf6c3fa4ca4714b4528ebf842c37b08306483f;
  0x13ee7ce0933e7813f80927e9673fd06bf240606461d084fbf1d7baab0eeb1903f;
  0x121a25793931e8e3fd6f201f4bb2233bfd2c49c4d2a7e82bfd0bee8b4dffc67bf;
  0x1a052ceb3563944bfc8c4d69fd0c2853ff9c8e72923a1833f8565d352f13435bf;
  0x18b2597b6019b6fbf40fb1e07fa4af43eb6e2c261ca249ebfb8c4ef9c1f9374bf;
  0x12cb4460f9f2a6e3f194dfcf7b5cb84bfe017702f2bf894bfdfd340ddc342693f;
  0x108c298372e5493bf0077f637109892bfae226b8f4d29913fccea7d81b32e823f;
  0x1997c2ecf97fe683ffe489a87268f66bf181e2792659956bf78aecc4b34f3abbf;
  0x151ce1970c29093bfe87fbafaada19c3f28fe8b4a0867a43f68e028e3d0cc9bbf;
  0x15ee30d79e1fd703f1287fac052f883bfe4d0760de7e656bf4e92cacbd8df853f;
  0x18ecedbc0b2288fbfa05461307b5636bf1a4dfcf7b5cb84bfe017702f2bf894bf;
  0x1e0d340ddc342693ff68d803a50ba91bf206f22665167a6bf864c4c18d0d3873f;
  0x1184dfcf7b5cb84bfe017702f2bf894bfdcd340ddc342693f14bed5a7871c7a3f;
  0x1ae1580d8a95b893f985810eead7e81bfb1c21d8b7c7c7ebf0a8b35522a2d80bf;
  0x113e56ec4fbdc663fd0520792a10979bf278876f781a6a7bff181d9ca26a491bf;
  0x13cf2ed89855f633f3826c6b4f8377a3f15c1bd01663746bf02ee365987dca03f;
  0x1797892656b8f933f7625534391fc92bf51daf8bc4d4b833f814811552309883f;
  0x194d9e60ecee668bf32cabb417057913f77d85f9e4321763f55a01299a9cb86bf;
  0x1ed0af892cc6d83bf866b2d04e48976bfc6d0047dade0753f78c8389d998d453f;
  0x1896f3a8ea7ac9c3f20f0ac405caa833f3da12df58ed197bf604c39e1d8625dbf;
  0x1778247113cbc913f50905cc6b12276bf384a8413454f3bbf779ea3f0697b703f;
  0x1d66c3a5813f98bbf65d2ffc433d971bf6aefec2da262823f52daf8bc4d4b833f;
  0x1814811552309883f94d9e60ecee668bf468d0ea2861c8e3f7717a99c549aa43f;
  0x176f8edef8ffb693f50daf8bc4d4b833f824811552309883f92d9e60ecee668bf;
  0x14ffd14ff833b76bff485ea9cc35f9dbf11938e4acb3f79bfdee15d4aa8ae7f3f;
  0x1ee27e94faa55913fd09b9d073ffe213f241d8168cc907b3ff5d680cfcd35a23f;
  0x1d17596d7544e7f3f8b85935fe7b860bfe426f5b2efd464bf3bc984310e95453f;
  0x18919a3f5451d41bf29efece999615f3f81d0997f274e80bfb673a75db57026bf;
  0x1aa4c5154bd92443fcfd82f8e365f65bfead5829d0f5b323f9e9a8a6125d450bf;
  0x171233b99c37c713fc3769232a49422bff2d5253cf108413f6783aa01c7b361bf;
  0x1adce780f72001a3f70384eee3dd637bfb4c9c00dbab9583f51d35f7f428244bf;
  0x1cde2b2147acd623f262a9f08888983bf52381edcd4972abf6aab645a7861483f;
  0x13b06a45e505569bf9f44f4a746ec353fc71c8a01641954bf97163e24c7e2743f;
  0x1b573a75db57026bfa94c5154bd92443fced82f8e365f65bf86616c3c83fc1b3f;
  0x1b0af5f1fdda839bf43f930e725b35a3fb673a75db57026bfaa4c5154bd92443f;
  0x1cfd82f8e365f65bf0bfb469a6b070abfc82d05c1e9dd273f73bd0611a3e148bf;
  0x153b68e0ac285183f163001284c7b36bf6fcdc5d83557573f0acc81742acb05bf;
  0x1e3252650b9fb233f6c7632a82fd544bf1d8317536106003fd655fb781c621dbf;
  0x14d0be67325863e3f8a03d36efffe2d3f30ce67bf608145bf277509a696d5873f;
  0x1d3dcd43bd469fc3e6886b09d533226bfdfa5b22345e855bff730b21e37ea033f;
  0x1e2c3cf3b58d42cbff6adfee2a13e56bf5eb2b2aa86e209bfcdb584b7d18e223f;
  0x158225f65509164bf720c4caf3d4b0c3f2ac2da96291538bf8fc8320a62256dbf;
  0x158965b1bd09b21bf949fd6c5a7854a3f87a627e2e17c773fc8ef798ede5548bf;
  0x13d221bbdb453723f2bc3731df33aa03fc43aaa8ce1e44fbf34e7ad25e015773f;
  0x1cbb91dd606d0a13fd1dcd43bd469fc3e6786b09d533226bfdea5b22345e855bf;
  0x16d19a121b8fe5dbf02cd06a5dbd8853ffdc8abccaa41b13fd1dcd43bd469fc3e;
  0x16786b09d533226bfdea5b22345e855bf040b32f7657e383f802cbbdabb9659bf;
  0x1d3c1fae01562723f31210449e78d203f1f8110554e1750bf1f4044b95e7688bf;
  0x1fc7908319296eebe868a1c8da8f40f3f62f6206708f526bfa3c4ce23b6b7363f;
  0x18dfc5e2f3ebf61bf50b5c923088491bf02ee365987dca0bf797892656b8f93bf;
  0x17625534391fc923f51daf8bc4d4b83bf81481155230988bf94d9e60ecee6683f;
  0x132cabb41705791bf77d85f9e432176bf55a01299a9cb863fed0af892cc6d833f;
  0x1866b2d04e489763fc6d0047dade075bf78c8389d998d45bf896f3a8ea7ac9cbf;
  0x120f0ac405caa83bf3da12df58ed1973f604c39e1d8625d3f778247113cbc91bf;
  0x150905cc6b122763f384a8413454f3b3f779ea3f0697b70bfd66c3a5813f98b3f;
  0x165d2ffc433d9713f6aefec2da26282bf52daf8bc4d4b83bf81481155230988bf;
  0x194d9e60ecee6683f468d0ea2861c8ebf7717a99c549aa4bf76f8edef8ffb69bf;
  0x150daf8bc4d4b83bf82481155230988bf92d9e60ecee6683f4ffd14ff833b763f;
  0x1f485ea9cc35f9d3f11938e4acb3f793fdee15d4aa8ae7fbfee27e94faa5591bf;
  0x1d09b9d073ffe21bf241d8168cc907bbff5d680cfcd35a2bfd17596d7544e7fbf;
  0x18b85935fe7b8603fe426f5b2efd4643f3bc984310e9545bf65a79e71fd02a13f;
  0x1f8e7eecc5c45923fc9f78ad648c096bfb18d51a8db96833fd0f542cec018873f;
  0x1a84889442cb24d3fc265b6e70e04913f3efda0b8ef3c7b3f4f5c502937c28cbf;
  0x1600e837b970983bff34b6eb9783f79bfd3d144989c81843fdbed5480d788403f;
  0x173134f2c556c9d3f0d8981817ddc873f76ebfb40450a97bf7198623b281074bf;
  0x1e82d0d9dc7a1953f9460ac4d374372bf4efc9f19d81477bff11deab2612c99bf;
  0x14f6baf7427aa8abf349925755df481bf8781545e6ea79fbfb28d51a8db96833f;
  0x1d0f542cec018873fa04889442cb24d3fd8ebe44f32d2903f2c474cdbdeae9e3f;
  0x11e1dc9e49adcb0bfb08d51a8db96833fd1f542cec018873fb04889442cb24d3f;
  0x1099053875b8f77bf88ddc0b213f69bbf9b3eb464d64284bffb85eb0722c87e3f;
  0x1c034da650cb1923fe0fc49fa70d3853ff9a48206aecb7b3fac690decd419a23f;
  0x129e6ea875150813f2cbc59a9f7cf63bf407d72fe045531bf6d4386ff97b6913f;
  0x184b076c3ff3a883f6c7d07572e0487bf68168ef5218ba1bf366f0d1dcb5874bf;
  0x138a3f6e458ce75bfaaba41ef330c643faca254408926523f77d8d2a3c970923f;
  0x1befa008f9aa882bf812d598930ed683f9511083fc8c1673f60f56cc2073b20bf;
  0x1fe18e16bc8bf813f168de5e0e08b9d3fc0e59423e9368d3f8e42c3665e2f8dbf;
  0x1b2bec79ec59cabbf467c15211479a13feecbf3f004c7743ff65465c0fb3c85bf;
  0x1d0c6428c695452bff556921d15827abf78565664abb247bf56a94ec17db7913f;
  0x1366f0d1dcb5874bf3ca3f6e458ce75bfaaba41ef330c643f7848f6245d5375bf;
  0x146c3a80908df80bfdedc05b54052933f356f0d1dcb5874bf40a3f6e458ce75bf;
  0x1a8ba41ef330c643fffd7fab885df773face0e98ec56b71bfa425111bd1b897bf;
  0x12bde28993c6c6cbfec14724b8bae77bf1c32bb8095f0733fdd9dee3953066ebf;
  0x11234f014ea0b793f1712fce879b2a03f626a8e58d9a050bf545927d06d2d7b3f;
  0x12d28f593084d403f5b1fd45421117fbf709aa7ea8e0077bf206aa704e90e8f3f;
  0x15692a5cabf717a3fd8b199e5e2a0973f06dffb4fea8466bf114e8d8f0d2069bf;
  0x13a69847dc6f662bf8e07a8569704793f88c45ad4d0616fbfc2d8ae674c3c67bf;
  0x171f82ec0925f7f3f9a8cc169fb3d71bff87d223a0ebe9ebfe67cfb24e9b97abf;
  0x11672e508804a883f5a9fba9e95129c3f84b1aa3167608bbf8bca46662f9b81bf;
  0x1b34c48eeda5894bf80b4be79b5d7833f0529f3c42507723fd0c7040fd4366b3f;
  0x18648e36b71f381bf5692a5cabf717a3fd9b199e5e2a0973f06dffb4fea8466bf;
  0x1cec2b5408cd06b3f46a082a1e72983bfd469853eb4678bbf5592a5cabf717a3f;
  0x1d9b199e5e2a0973f04dffb4fea8466bff47cd2dd777f6bbf4d16e0d05972833f;
  0x1033c04ce125f8b3fb812a80db1b06b3f55734526cb34993fdc4408d1009e763f;
  0x12a8050d26429633f0f46f7463e1a7bbfc88126dfd11283bfd43260627685633f;
  0x19c7152615171813f1de19c66b09f50bf66dca78b9a525fbf489f5b12e48a693f;
  0x116415604ca888d3f52fe18cc911057bfc08fcc5281ab92bf006e1a74ab38ecbe;
  0x18177ddee053b44bfa421541f3fc146bf81c39572a7ee6e3fabd867c9299e513f;
  0x1944a2bc3c2bb5cbf740cd9e4a89c80bfd9a3ab45e60645bf6ac2d27fdf7595bf;
  0x1a2399dfde7da7abf2e3a1b147a63673f48d78390f9e9983faa331f49dbb77abf;
  0x1fe1ce1d9c3ff6c3f4de8ddbdefe39e3ff1dd9cc34e9080bfc45ebad4454c563f;
  0x1c89b02ce8814593f06178446ef0b81bf52fe18cc911057bfc08fcc5281ab92bf;
  0x1006e1a74ab38ecbec725fa8ce44e683f888781de849c853fa8a9b4c57f838dbf;
  0x151fe18cc911057bfbf8fcc5281ab92bf006e1a74ab38ecbe90337675afa864bf;
  0x1567bb06d6b9773bfde4abe4ebb858d3fc04b63912921e3be0534374865a992bf;
  0x1ac31c22cd13483bf8add2c9e56be523fe8d3d3a568c6613f4f5f3cd701c97abf;
  0x1a7302df5ae3054bf7a4e08f5d55790bf00085d7842b4e8be2a955e1e6f2063bf;
  0x1d162c4c7bc218c3fd55c759aa929733ff7e278a40e3415bf82ad219c298d3f3f;
  0x14ef6716178a7343f9b5a1a6b8a1b653f85544fb6cdb78ebf8f9e878faf5549bf;
  0x172aa92cda4d332bfeed87814cbb05b3f0e41b43cbadc423fce61964a71416fbf;
  0x14cb30fd90ca8963fe2534492046453bf62c21fe504803ebf08368872e0e7613f;
  0x1c1a51baefb278dbf9257c5561188f0be41e10e9d1069133f9ab62f93309b3fbf;
  0x1f9b1841bef3e473f0b4078ce36ea70bf02c87c0db4e62bbff7e278a40e3415bf;
  0x182ad219c298d3f3f4ef6716178a7343f4aaf86076df152bf09b85399d5d87c3f;
  0x1c0592e9ab246823ff9e278a40e3415bf86ad219c298d3f3f4ef6716178a7343f;
  0x18021c054f8460a3f7a095d522a183ebf357740cd57e672bfd5d745a296d5193f;
  0x1a242376661f843bf7f4efce0cf9350bfe0ee7a8831dc273fdc5f8b8380535bbf;
  0x176cb956c4a2991bffa5426b823cb21bfdbeaa70a3a7a4a3f2d0e26432955413f;
  0x15b1fd45421117f3f709aa7ea8e00773f206aa704e90e8fbf5692a5cabf717abf;
  0x1d8b199e5e2a097bf06dffb4fea84663f114e8d8f0d20693f3a69847dc6f6623f;
  0x18e07a856970479bf88c45ad4d0616f3fc2d8ae674c3c673f71f82ec0925f7fbf;
  0x19a8cc169fb3d713ff87d223a0ebe9e3fe67cfb24e9b97a3f1672e508804a88bf;
  0x15a9fba9e95129cbf84b1aa3167608b3f8bca46662f9b813fb34c48eeda58943f;
  0x180b4be79b5d783bf0529f3c4250772bfd0c7040fd4366bbf8648e36b71f3813f;
  0x15692a5cabf717abfd9b199e5e2a097bf06dffb4fea84663fcec2b5408cd06bbf;
  0x146a082a1e729833fd469853eb4678b3f5592a5cabf717abfd9b199e5e2a097bf;
  0x104dffb4fea84663ff47cd2dd777f6b3f4d16e0d0597283bf033c04ce125f8bbf;
  0x1b812a80db1b06bbf55734526cb3499bfdc4408d1009e76bf2a8050d2642963bf;
  0x10f46f7463e1a7b3fc88126dfd112833fd4326062768563bf9c715261517181bf;
  0x11de19c66b09f503f75207c2382c980bf344c17d4111885bff447a69e6e1388bf;
  0x11cad98317c66723f0f298ec28f06993f1e1a65eb28d891bf5312c2492149653f;
  0x1c8ca728b4dff8c3ffb832de41b71843f521bcec10da0753f78179d258e3c873f;
  0x1d5d5649eade9833fe0baa8be45a570bfaa9352ecf877a7bf6aff3dacfcea933f;
  0x1c4628b804f4a8b3fbc249edcdacc843fbbd14d548654a6bf1cc4549ec5c065bf;
  0x18a5479106d228d3f322fd9813b2a833f3e7978b9b160863fef103da01d809b3f;
  0x1bec815fb5123853f1cad98317c66723f10298ec28f06993f1e1a65eb28d891bf;
  0x1d2f05f2caa16673fe864215fb698813f8063f68441262b3f1cad98317c66723f;
  0x113298ec28f06993f1c1a65eb28d891bf9ba045063733803f78c2047672499c3f;
  0x19c3f91af4d39783ff8490b3a60a8a0bf086685a6bce0673f36ad29031b12af3f;
  0x14890ac83372f8c3f340783277fd986bfb4c63a863a287cbfb03e7c483840703f;
  0x150f470ab7b9757bf78d4749143ee273fe3d867304bd14d3f3b06a9082ddd7b3f;
  0x1e8a12f86ec765f3ff3c2e64337185b3f3e7772491fc4683f55731b6bb62044bf;
  0x178f7e9f5088679bf9aca9e8575408cbfee688ceb5f9e543f583bdfe7f3c476bf;
  0x13567b23b0d47a5bfa7aa1141eb0688bf6e5a0f96b17e4f3f1d0cb9fb0e3f783f;
  0x1478b04ecc11e583f38ccdb724619453f81d3784fe2de753fa94b37b2070d5a3f;
  0x1a4d1ecd36fe473bf14081523bf9ea4bf831fc8f8b38f88bf6b33b6f95f837fbf;
  0x1144f9455d97091bf40aa6f970c75593ff3c2e64337185b3f3e7772491fc4683f;
  0x155731b6bb62044bf8f1c4a56218f51bf695d1b6e43137dbf88ab1542e97a5ebf;
  0x1ecc2e64337185b3f257772491fc4683f73731b6bb62044bf2a8b6b58943b87bf;
  0x15cbf488978f28fbf83824e816c827a3fb67aed6458f2a13f700a640cbf7e9c3f;
  0x138754a993ea59dbf56b1396a24d182bf2aa175ea03e089bf7f7075d88c78753f;
  0x19b4d939f200437bffce3ab13c30945bf979bcef61619213f49836eb4cbea553f;
  0x15e35b795827386bf30d454051c3013bf8aa211264bf9513f30d3343e913682bf;
  0x1525a61a86e5a6cbf051c998660422ebfc4de23a3a5435b3f850b788e6763803f;
  0x146d1cab95f0368bfe89fe6a82999983fd0bf66bdde05253f3c213bd3afa158bf;
  0x1a7f64d44feb1893f4a419c37791680bf884db1135d2e0d3fc0c81a78641c18bf;
  0x11ca4e2804e298abf50d8ec2e9e0c053fc08f804c596411bf9d956893fcde82bf;
  0x1c71fbacafceb133f4e8007e531f341bfb667c938439465bf8aa211264bf9513f;
  0x130d3343e913682bf525a61a86e5a6cbf7c4afbdcce374c3fc77c629c021c7cbf;
  0x133985a4e8b1d7cbf8ba211264bf9513f30d3343e913682bf505a61a86e5a6cbf;
  0x105a92b8bf6ed433f5fe4ad1ce6ad74bf3741330c4841623fd75c1ae96751413f;
  0x1fa590598b45270bf814e16e3dbe788bf727372b660455ebfa49342c9e8688f3f;
  0x1989e5cb440ba7bbfa7848632925758bf782033028eaa883f9c305e0e1433733f;
  0x182e91184e5cb5abf3d312670b61c823fc0334925edac993f28a1890be8c849bf;
  0x1e68dde635f74723f22a5ca29df33933f2e81b86b241c4a3fa82c33b3fcc971bf;
  0x1d718c3c403e68abfd9ccb639935244bf743dce7501796b3f0bb6ce87ef78833f;
  0x175b4406f01fe393ffba79414fab665bfb2066f78261094bffc7a9def48ba61bf;
  0x1cae50a021899883f04148aea5736a53f53ec5097956e52bf0267c6a34493793f;
  0x1371d0b42150e963fd5053662c9e5513f7db37fe6406378bf4f56da152a7092bf;
  0x128a1890be8c849bfe68dde635f74723f22a5ca29df33933f9136f020fccd493f;
  0x12b30caf6f55570bfb08352ea54ec73bf2aa1890be8c849bfe68dde635f74723f;
  0x122a5ca29df33933fe2f316e0006641bf9d0bd9f181a3643fd0aac36be27854bf;
  0x1667df329a3e6353fef6a6fa7f28a61bf7659778e12c78cbf390f0ec2b96139bf;
  0x19b8dd329d91b5e3f187658e1aadd4dbfce0bebf4978a303f9090bed187ad57bf;
  0x1648447fc3aa378bf66dca78b9a525f3f489f5b12e48a69bf16415604ca888dbf;
  0x152fe18cc9110573fc08fcc5281ab923f006e1a74ab38ec3e8177ddee053b443f;
  0x1a421541f3fc1463f81c39572a7ee6ebfabd867c9299e51bf944a2bc3c2bb5c3f;
  0x1740cd9e4a89c803fd9a3ab45e606453f6ac2d27fdf75953fa2399dfde7da7a3f;
  0x12e3a1b147a6367bf48d78390f9e998bfaa331f49dbb77a3ffe1ce1d9c3ff6cbf;
  0x14de8ddbdefe39ebff1dd9cc34e90803fc45ebad4454c56bfc89b02ce881459bf;
  0x106178446ef0b813f52fe18cc9110573fc08fcc5281ab923f006e1a74ab38ec3e;
  0x1c725fa8ce44e68bf888781de849c85bfa8a9b4c57f838d3f51fe18cc9110573f;
  0x1bf8fcc5281ab923f006e1a74ab38ec3e90337675afa8643f567bb06d6b97733f;
  0x1de4abe4ebb858dbfc04b63912921e33e0534374865a9923fac31c22cd134833f;
  0x18add2c9e56be52bfe8d3d3a568c661bf4f5f3cd701c97a3fa7302df5ae30543f;
  0x17a4e08f5d557903f00085d7842b4e83ee3d867304bd14dbf3b06a9082ddd7bbf;
  0x1e8a12f86ec765fbff3c2e64337185bbf3e7772491fc468bf55731b6bb620443f;
  0x178f7e9f50886793f9aca9e8575408c3fee688ceb5f9e54bf583bdfe7f3c4763f;
  0x13567b23b0d47a53fa7aa1141eb06883f6e5a0f96b17e4fbf1d0cb9fb0e3f78bf;
  0x1478b04ecc11e58bf38ccdb72461945bf81d3784fe2de75bfa94b37b2070d5abf;
  0x1a4d1ecd36fe4733f14081523bf9ea43f831fc8f8b38f883f6b33b6f95f837f3f;
  0x1144f9455d970913f40aa6f970c7559bff3c2e64337185bbf3e7772491fc468bf;
  0x155731b6bb620443f8f1c4a56218f513f695d1b6e43137d3f88ab1542e97a5e3f;
  0x1ecc2e64337185bbf257772491fc468bf73731b6bb620443f2a8b6b58943b873f;
  0x15cbf488978f28f3f83824e816c827abfb67aed6458f2a1bf700a640cbf7e9cbf;
  0x138754a993ea59d3f56b1396a24d1823f2aa175ea03e0893f7f7075d88c7875bf;
  0x19b4d939f2004373ffce3ab13c309453f979bcef6161921bfb654b6f92ba74cbf;
  0x1e358f1cc9ebf9a3f42e03e0826b48e3f2ce2ee2effd2303f95f696b078e491bf;
  0x18ad28cc45a714bbf3062c96363a879bfe0bd9c22f3bd813f8f85a562e88e64bf;
  0x1aa09ec4992fe71bf5aec3c326949a0bf4559fa37ed4c95bfbb9b14b88cf546bf;
  0x1da1add88d86babbf583cea3ed2a5803f328944659f57623f3abb363e9750a53f;
  0x145525ffb7f898a3fc03b7afafc1453bfd2c7455b51a787bf5c9c371e8dc596bf;
  0x12ddb1c836f587abfe49ab90a7ee693bf17fb01b4f17a76bf2ce2ee2effd2303f;
  0x195f696b078e491bf8ad28cc45a714bbfbe2b87dca4cc5a3fd2ba984aa4038f3f;
  0x1aa677acd684489bf14e2ee2effd2303f97f696b078e491bfa9d28cc45a714bbf;
  0x17856799ce1f48bbf9a41abc21e3a97bf1d799aa75040923f53cedea1d00aa23f;
  0x158021fb5c9df6d3f282069c6741aa5bf3525f00fd51183bfd03feb5d7837693f;
  0x1ffe762283524913f73f59a16a6725abfc6f4d6b629bf84bf7e31d463fe89473f;
  0x1cc2cc6b4f7b220bf6ba37b08f79690bf8ca8ea660c1c563f28f5f9f6298de6be;
  0x1e6adc537da8b623ff4d583ae067f2b3fc221e27f322843bf4a65184d3eb597bf;
  0x1c3be80e55fe67e3fb0e04ee6cab517bfc1543b7e088e87bfe8b69fa064644f3f;
  0x128293c04acb6503f29db6aa8cab8a33fc04738006e0f8bbf13481b9758a4543f;
  0x199d416b0f87e88bf5201d454e65192bfae86b60bd5e923bfdcc06b55a2a1573f;
  0x116ed28005eac613fdadc4fa53f081a3f2fd61508b51b703f9321a9cca6fe54bf;
  0x128f5f9f6298de6bee6adc537da8b623ff4d583ae067f2b3f020d8c9c0b08313f;
  0x1ffe12423c1f087bfddeef940e81c70bf34f5f9f6298de6bee6adc537da8b623f;
  0x1f8d583ae067f2b3f8365f053a6372cbfb118d6143dd8623f9567c2004119693f;
  0x160d2698a4faa29bf80d823368265783f169235e912aa673f807ce0cbdbc3543f;
  0x1247c7bd847bc8bbfb3a31468527892bfb22c1e31df1d003fdccce8c83c827abf;
  0x1b8fe01b089a643bf49836eb4cbea55bf5e35b7958273863f30d454051c30133f;
  0x18aa211264bf951bf30d3343e9136823f525a61a86e5a6c3f051c998660422e3f;
  0x1c4de23a3a5435bbf850b788e676380bf46d1cab95f03683fe89fe6a8299998bf;
  0x1d0bf66bdde0525bf3c213bd3afa1583fa7f64d44feb189bf4a419c377916803f;
  0x1884db1135d2e0dbfc0c81a78641c183f1ca4e2804e298a3f50d8ec2e9e0c05bf;
  0x1c08f804c5964113f9d956893fcde823fc71fbacafceb13bf4e8007e531f3413f;
  0x1b667c9384394653f8aa211264bf951bf30d3343e9136823f525a61a86e5a6c3f;
  0x17c4afbdcce374cbfc77c629c021c7c3f33985a4e8b1d7c3f8ba211264bf951bf;
  0x130d3343e9136823f505a61a86e5a6c3f05a92b8bf6ed43bf5fe4ad1ce6ad743f;
  0x13741330c484162bfd75c1ae9675141bffa590598b452703f814e16e3dbe7883f;
  0x1727372b660455e3fa49342c9e8688fbf989e5cb440ba7b3fa78486329257583f;
  0x1782033028eaa88bf9c305e0e143373bfcc2cc6b4f7b2203f6ba37b08f796903f;
  0x18ca8ea660c1c56bf28f5f9f6298de63ee6adc537da8b62bff4d583ae067f2bbf;
  0x1c221e27f3228433f4a65184d3eb5973fc3be80e55fe67ebfb0e04ee6cab5173f;
  0x1c1543b7e088e873fe8b69fa064644fbf28293c04acb650bf29db6aa8cab8a3bf;
  0x1c04738006e0f8b3f13481b9758a454bf99d416b0f87e883f5201d454e651923f;
  0x1ae86b60bd5e9233fdcc06b55a2a157bf16ed28005eac61bfdadc4fa53f081abf;
  0x12fd61508b51b70bf9321a9cca6fe543f28f5f9f6298de63ee6adc537da8b62bf;
  0x1f4d583ae067f2bbf020d8c9c0b0831bfffe12423c1f0873fddeef940e81c703f;
  0x134f5f9f6298de63ee6adc537da8b62bff8d583ae067f2bbf8365f053a6372c3f;
  0x1b118d6143dd862bf9567c200411969bf60d2698a4faa293f80d82336826578bf;
  0x1169235e912aa67bf807ce0cbdbc354bf247c7bd847bc8b3fb3a314685278923f;
  0x1b22c1e31df1d00bfdccce8c83c827a3fb8fe01b089a6433f00aa98686a8c633f;
  0x1c3a51c7a2222a3bfc0f174c5fdc4903fdd12504c029c433ff203a17b5df465bf;
  0x18c07bb7666457dbfc8dcf794cd9f5dbf878eae101a2c8abf9c0af6d2d281813f;
  0x19c32463b402f6abfc69a5319718f8c3ffba26afedc1e54bf624a4856102362bf;
  0x1986c565c689db03f90019bf6625196bfdd73a756f126723fac33b51a9dc2a3bf;
  0x1a3a50c1dc9ad83bf08caec10c4cf42bf1ed88a1a9fca7f3f4731090b46f19b3f;
  0x140961da46ff056bf9961576ce28e943f2ff092e6c8bba03fdd12504c029c433f;
  0x1f203a17b5df465bf8c07bb7666457dbf0028c0808252a13e98e30ef5ed316dbf;
  0x1615e612d78a5aa3fdf12504c029c433ff203a17b5df465bf8a07bb7666457dbf;
  0x1a013760d229604bf4026859ac3b14f3fcede15a58471953f89abb1b94e48433f;
  0x18071ce745fd552bf3facbefdd5a998bf107e0721c7f34dbfbe35c78dc717713f;
  0x15a980006e8fe90bf19000b374f7b55bf705d1c184354693f77dbefda33338dbf;
  0x19cece76e178c4fbfafccef8f0243833f3ae3b307c2d686bfbe4ac7d7f6973c3f;
  0x14631c47cba996fbf8eefb1af14f355bf17848f8f28284f3f45fe7196c0c181bf;
  0x1446b09c2336b543f22842efef7c3203fdc3870bc157954bf174d43df6a46583f;
  0x100a4325a1bdf593f981c6a3b11a88bbf795497cf0bb588bf5ce7b6e011e667bf;
  0x1c2be766434e19a3f76721192e88b5c3fb5073c9a45d5483fdeec3b543eee7bbf;
  0x1d6f01862a1a93dbfa338ab5bab755e3f0558523b075c91bf6e1879903af6633f;
  0x1be4ac7d7f6973c3f4631c47cba996fbf8eefb1af14f355bf2c519f11ce185b3f;
  0x1dc7552f899c68fbf357fe0d1287e823fbe4ac7d7f6973c3f4631c47cba996fbf;
  0x18fefb1af14f355bf1899bab437c6433fc8d92770e83172bfc9581fcc0f5890bf;
  0x17036c5596eff3abf066bb503d8b66c3fe84ed881b9176c3fcfbda88f173a343f;
  0x1ebbc1019879c62bf758b91c9d5b780bfac66b09a47a434bfa6de1fe5f8cf663f;
  0x14c89c937d3b04f3f1d003ddfe2f22bbfa9e2441d6b414a3fbca9c65c302c70bf;
  0x126503ac13e060b3f17340d15590a18bff7f4ea83ec70753f6ccb7c8d7fea053f;
  0x1c1efc1ab3e2d04bfc665026cbc8e773f9a838099aa7c083fc426ea8ce30027bf;
  0x1a412488ec0564c3f77c5f71a0ce0233f369cfc2918c135bf91cef884ea318a3f;
  0x1e571b9cbb00e2abf87e0081c451b333fb617e08f675897bfa6239cd2595e33bf;
  0x17e2ba09d66673c3f58fd9707495aa1bf620a34c2df9732bf50fd0b76201e313f;
  0x13e618cf965fca3bf26503ac13e060b3f13340d15590a18bff7f4ea83ec70753f;
  0x165819d181c7a41bf02e600443045413f8807e2692866b2bf26503ac13e060b3f;
  0x116340d15590a18bff6f4ea83ec70753fe8a0ce76227326bfcde7a25443cf473f;
  0x100c50b2a1277343fb95fc3e6f178243fcaa98968683439bfc85a3e726650873f;
  0x17d28e6813076fa3e09122aec87101cbfa08adac4541f08bf1934cc25ef6d263f;
  0x1769f0a32ecf333bfa21dd109a4cb913f9cece76e178c4f3fafccef8f024383bf;
  0x13ae3b307c2d6863fbe4ac7d7f6973cbf4631c47cba996f3f8eefb1af14f3553f;
  0x117848f8f28284fbf45fe7196c0c1813f446b09c2336b54bf22842efef7c320bf;
  0x1dc3870bc1579543f174d43df6a4658bf00a4325a1bdf59bf981c6a3b11a88b3f;
  0x1795497cf0bb5883f5ce7b6e011e6673fc2be766434e19abf76721192e88b5cbf;
  0x1b5073c9a45d548bfdeec3b543eee7b3fd6f01862a1a93d3fa338ab5bab755ebf;
  0x10558523b075c913f6e1879903af663bfbe4ac7d7f6973cbf4631c47cba996f3f;
  0x18eefb1af14f3553f2c519f11ce185bbfdc7552f899c68f3f357fe0d1287e82bf;
  0x1be4ac7d7f6973cbf4631c47cba996f3f8fefb1af14f3553f1899bab437c643bf;
  0x1c8d92770e831723fc9581fcc0f58903f7036c5596eff3a3f066bb503d8b66cbf;
  0x1e84ed881b9176cbfcfbda88f173a34bfebbc1019879c623f758b91c9d5b7803f;
  0x1ac66b09a47a4343fa6de1fe5f8cf66bf4c89c937d3b04fbf97d3fcd333719abf;
  0x1e2f6075a250c91bfb45199024a9b623f76b1be9b852276bf4c8f076ac0208abf;
  0x1c8284c9df3ce463f49a77decc1f690bfaee9d6608aff91bf5238a1b91cb58d3f;
  0x150ee2fd185c68b3f62f259746e468a3f5acda3f4b1a477bf089740a0d7d9983f;
  0x16a10d430b0f183bf3032e215e191a0bf98f5bc6c4eb545bf70db261fe57052bf;
  0x14078d9a78e6a87bf185869c93815543f1a3cca40829989bf61e80380571b6abf;
  0x1e70ce43a6395813f17cdae0607b78bbf6c353229a4bf65bf76b1be9b852276bf;
  0x14c8f076ac0208abfcc284c9df3ce463fcaf3ba9c95e88bbfdb86e82ec8eca9bf;
  0x1be64cbd250a8833f76b1be9b852276bf4c8f076ac0208abfc6284c9df3ce463f;
  0x1f0382f0d3feb653fe8c25256e399853fce08a1525a6c88bf6ddca77df62a7dbf;
  0x1b44bc60c96e18cbfdaf90b75d4ed663f50d7e6ffccd674bfbf3cd87a3226a5bf;
  0x1d6c68015d11e93bf49c302b8de43793f3c17925af8ef893f4eb243690c2e55bf;
  0x132948518d374993f39ddffa1a6ad9a3fa7375a88947d8bbf22263b0905ec773f;
  0x1fa82d6ca513a823ff9012c3f47ad60bf6a23fa3003f0913f16d53b2b543d823f;
  0x1ea0a6041b6278bbf3f3437f175838bbf7ef9e72b91d58cbfa0a074ac4cb67d3f;
  0x1c86c9deae53b97bfb830582a84d96ebf24baf8433cc9943ff6a98745be7862bf;
  0x1792c69b642089c3f8fa61bba0bfc8a3ff8502df157aa3ebf568b582dc644773f;
  0x146cac0532366663fa64bdd9e5b8d7bbfcb8bd7bf1d046cbfeda6d55cefda743f;
  0x122263b0905ec773ffb82d6ca513a823ffa012c3f47ad60bfefddee5eaf4b8f3f;
  0x164e9d3b021fba13f9058ae0e80a242bf22263b0905ec773ffb82d6ca513a823f;
  0x1f9012c3f47ad60bfaa920020b1f960bfccaf668ed7b28ebf88513b8b8a8770bf;
  0x106890b98ff7a7b3f3bd3d906a607923f3854313394a7443f2d63e1786e1a763f;
  0x1f03047096afca33f37027061cc85853fb4c9ad31238e7abf931f4a21fa3b84bf;
  0x17a3b94023b83623f2a955e1e6f20633fd162c4c7bc218cbfd55c759aa92973bf;
  0x1f7e278a40e34153f82ad219c298d3fbf4ef6716178a734bf9b5a1a6b8a1b65bf;
  0x185544fb6cdb78e3f8f9e878faf55493f72aa92cda4d3323feed87814cbb05bbf;
  0x10e41b43cbadc42bfce61964a71416f3f4cb30fd90ca896bfe25344920464533f;
  0x162c21fe504803e3f08368872e0e761bfc1a51baefb278d3f9257c5561188f03e;
  0x141e10e9d106913bf9ab62f93309b3f3ff9b1841bef3e47bf0b4078ce36ea703f;
  0x102c87c0db4e62b3ff7e278a40e34153f82ad219c298d3fbf4ef6716178a734bf;
  0x14aaf86076df1523f09b85399d5d87cbfc0592e9ab24682bff9e278a40e34153f;
  0x186ad219c298d3fbf4ef6716178a734bf8021c054f8460abf7a095d522a183e3f;
  0x1357740cd57e6723fd5d745a296d519bfa242376661f8433f7f4efce0cf93503f;
  0x1e0ee7a8831dc27bfdc5f8b8380535b3f76cb956c4a29913ffa5426b823cb213f;
  0x1dbeaa70a3a7a4abf2d0e2643295541bf82e91184e5cb5a3f3d312670b61c82bf;
  0x1c0334925edac99bf28a1890be8c8493fe68dde635f7472bf22a5ca29df3393bf;
  0x12e81b86b241c4abfa82c33b3fcc9713fd718c3c403e68a3fd9ccb6399352443f;
  0x1743dce7501796bbf0bb6ce87ef7883bf75b4406f01fe39bffba79414fab6653f;
  0x1b2066f782610943ffc7a9def48ba613fcae50a02189988bf04148aea5736a5bf;
  0x153ec5097956e523f0267c6a3449379bf371d0b42150e96bfd5053662c9e551bf;
  0x17db37fe64063783f4f56da152a70923f28a1890be8c8493fe68dde635f7472bf;
  0x122a5ca29df3393bf9136f020fccd49bf2b30caf6f555703fb08352ea54ec733f;
  0x12aa1890be8c8493fe68dde635f7472bf22a5ca29df3393bfe2f316e00066413f;
  0x19d0bd9f181a364bfd0aac36be278543f667df329a3e635bfef6a6fa7f28a613f;
  0x17659778e12c78c3f390f0ec2b961393f9b8dd329d91b5ebf187658e1aadd4d3f;
  0x1ce0bebf4978a30bf9090bed187ad573f648447fc3aa3783f1d003ddfe2f22b3f;
  0x1a9e2441d6b414abfbca9c65c302c703f26503ac13e060bbf17340d15590a183f;
  0x1f7f4ea83ec7075bf6ccb7c8d7fea05bfc1efc1ab3e2d043fc665026cbc8e77bf;
  0x19a838099aa7c08bfc426ea8ce300273fa412488ec0564cbf77c5f71a0ce023bf;
  0x1369cfc2918c1353f91cef884ea318abfe571b9cbb00e2a3f87e0081c451b33bf;
  0x1b617e08f6758973fa6239cd2595e333f7e2ba09d66673cbf58fd9707495aa13f;
  0x1620a34c2df97323f50fd0b76201e31bf3e618cf965fca33f26503ac13e060bbf;
  0x113340d15590a183ff7f4ea83ec7075bf65819d181c7a413f02e60044304541bf;
  0x18807e2692866b23f26503ac13e060bbf16340d15590a183ff6f4ea83ec7075bf;
  0x1e8a0ce762273263fcde7a25443cf47bf00c50b2a127734bfb95fc3e6f17824bf;
  0x1caa989686834393fc85a3e72665087bf7d28e6813076fabe09122aec87101c3f;
  0x1a08adac4541f083f1934cc25ef6d26bf769f0a32ecf3333fa21dd109a4cb91bf;
  0x132948518d37499bf39ddffa1a6ad9abfa7375a88947d8b3f22263b0905ec77bf;
  0x1fa82d6ca513a82bff9012c3f47ad603f6a23fa3003f091bf16d53b2b543d82bf;
  0x1ea0a6041b6278b3f3f3437f175838b3f7ef9e72b91d58c3fa0a074ac4cb67dbf;
  0x1c86c9deae53b973fb830582a84d96e3f24baf8433cc994bff6a98745be78623f;
  0x1792c69b642089cbf8fa61bba0bfc8abff8502df157aa3e3f568b582dc64477bf;
  0x146cac053236666bfa64bdd9e5b8d7b3fcb8bd7bf1d046c3feda6d55cefda74bf;
  0x122263b0905ec77bffb82d6ca513a82bffa012c3f47ad603fefddee5eaf4b8fbf;
  0x164e9d3b021fba1bf9058ae0e80a2423f22263b0905ec77bffb82d6ca513a82bf;
  0x1f9012c3f47ad603faa920020b1f9603fccaf668ed7b28e3f88513b8b8a87703f;
  0x106890b98ff7a7bbf3bd3d906a60792bf3854313394a744bf2d63e1786e1a76bf;
  0x1f03047096afca3bf37027061cc8585bfb4c9ad31238e7a3f931f4a21fa3b843f;
  0x17a3b94023b8362bff428ba16212c953f2aa76fcb754fa93f65890f61025b893f;
  0x11183ba4a2494743ff1bc7c17d6408c3ffaa965440fcd963f2cf181e14a6f953f;
  0x1b2d75823a57385bf64358d64dbed95bfdcb5a5a0bf468dbf9ef718fa3add82bf;
  0x1cb655cc5a6a3923fa546fdf55b949abf8a4b1461f17d8f3ff9aac3899537893f;
  0x12e5a426ff9d174bfd0e417ed1b6fa53fba10344b50fe913fd85e9e4de2325fbf;
  0x14a98b6be1276893f1406f3494ab084bf9874025f895575bfcd7cc146d21e8bbf;
  0x15054eccc03b5aabf1183ba4a2494743ff2bc7c17d6408c3ffaa965440fcd963f;
  0x1583383bebf728d3ff81d356692d0a33f3cc15e655c81b1bf1183ba4a2494743f;
  0x1f2bc7c17d6408c3ff9a965440fcd963f2b39209e475166bfb426392fc4fd88bf;
  0x190fb65e854a283bf3af369b487e47d3f420a300a66a38d3feacc9554b3fa68bf;
  0x1d93f8699aa5d753f555d838aa404a43f42ed2bf584857dbffee9f156636079bf;
  0x1f3c767dca62986bfd4e855eacbfb8c3f]%N.
Definition file_150 : list N := [0x1934e554d5059010076007b276465736372273a205b282773616d706c65272c20;
  0x1273c693427292c202827737472756374757265272c20273c693427292c202827;
  0x161746f6d272c20273c693427295d2c2027666f727472616e5f6f72646572273a;
  0x12046616c73652c20277368617065273a202837382c292c207d2020202020200a;
  0x10000000000000000040000000000000000000000050000000000000000000000;
  0x10600000000000000000000000900000001000000000000000400000001000000;
  0x10000000005000000010000000000000006000000010000000000000007000000;
  0x10100000000000000090000000200000000000000040000000200000000000000;
  0x10500000002000000000000000600000002000000000000000700000002000000;
  0x10000000009000000030000000000000005000000030000000000000006000000;
  0x10300000000000000070000000300000000000000080000000300000000000000;
  0x10900000004000000000000000700000004000000000000000800000004000000;
  0x10000000009000000050000000000000004000000050000000000000005000000;
  0x10500000000000000060000000500000000000000070000000500000000000000;
  0x10800000005000000000000000900000006000000010000000400000006000000;
  0x10100000005000000060000000100000006000000070000000100000004000000;
  0x10700000001000000050000000700000001000000060000000700000001000000;
  0x10700000007000000010000000900000008000000010000000400000008000000;
  0x10100000005000000080000000100000006000000080000000100000007000000;
  0x10900000001000000050000000900000001000000060000000900000001000000;
  0x1070000000900000001000000080000000900000001000000090000000a000000;
  0x101000000070000000a00000001000000080000000a0000000100000009000000;
  0x10b00000001000000050000000b00000001000000070000000b00000001000000;
  0x1080000000b00000001000000090000000c00000002000000040000000c000000;
  0x102000000050000000c00000002000000060000000c0000000200000009000000;
  0x10d00000002000000040000000d00000002000000050000000d00000002000000;
  0x1060000000d00000002000000070000000d00000002000000090000000e000000;
  0x102000000040000000e00000002000000050000000e0000000200000006000000;
  0x10e00000002000000070000000f00000002000000050000000f00000002000000;
  0x1060000000f00000002000000070000000f00000002000000080000000f000000;
  0x10200000009000000100000000200000007000000100000000200000008000000;
  0x11000000002000000090000001100000002000000040000001100000002000000;
  0x10500000011000000020000000700000011000000020000000800000011000000;
  0x10200000009000000]%N.
Definition file_151 : list N := [0x1934e554d5059010076007b276465736372273a205b28276772616469656e745f;
  0x1646972656374696f6e272c20273c693427295d2c2027666f727472616e5f6f72;
  0x1646572273a2046616c73652c20277368617065273a2028332c292c207d202020;
  0x1202020202020202020202020202020202020202020202020202020202020200a;
  0x1000000000100000002000000]%N.
Definition file_152 : list N := [0x1934e554d5059010076007b276465736372273a205b282773706865726963616c;
  0x15f6861726d6f6e6963735f6d272c20273c693427295d2c2027666f727472616e;
  0x15f6f72646572273a2046616c73652c20277368617065273a2028352c292c207d;
  0x1202020202020202020202020202020202020202020202020202020202020200a;
  0x1feffffffffffffff000000000100000002000000]%N.
Definition file_153 : list N := [0x1934e554d5059010076007b276465736372273a20273c6638272c2027666f7274;
  0x172616e5f6f72646572273a2046616c73652c20277368617065273a202831382c;
  0x120352c2033292c207d2020202020202020202020202020202020202020202020;
  0x1202020202020202020202020202020202020202020202020202020202020200a;
  0x15b44f6a5db3d80bff62e19063290a5bfdce8690319f493bfbcbd0b522bb71cbf;
  0x10683bfeb408c44bf235b03499d171cbf99978ae080af73bf9c2ec47b947599bf;
  0x1c48cabb954048dbf5ec2091df361223fcd67eb28d7bf4a3f57b738b60e5a173f;
  0x1e858280272e6623ffd331920e3c8843f9a1cda3c57008b3f0a8e45a38f1a973f;
  0x11c1e3fadd0579a3f788a8df7811d923f5b9e53ab3e6eaa3fd5f3dc87ee6c9d3f;
  0x10a6ff02afdcc673f85f1feab0bca9d3f48d799c1c92c593fe7a9b10fc3328cbf;
  0x10bb4b19b9fd9a03f6775010ce739a33fa6f8f86cecc68c3f82edba3f6a2583bf;
  0x15ab6dc7950ab943f26b53245973c913f50cfdea4d7c1993fd08dc0cc31ac983f;
  0x1a12ad6681e38913f4acd56885dd0aabf2a9eedfd1d459abf63ad2d7bcc1766bf;
  0x12dcf8e1fa2459d3f8002901759aa393f16ecf6bde7818bbfe60022dd99c5a2bf;
  0x10a6d438899eda2bfee810949711b8dbfbd0a721c861681bf5e0ff7868b40953f;
  0x17150438684bc913f968095e476c9a9bf5ad83b93fc2ba2bf64987039fc4977bf;
  0x15f2faaab544c723fe60e879241e9723f66ade62a6057503f9c6423c981b8a3bf;
  0x150d5591943d5abbfeb50dc5d833a90bf9b83f022a77961bf323b804c380865bf;
  0x18c9e9e3ee4b949bf434a4407d514a5bf12df770bf6469ebf204ef40167e747bf;
  0x111b3ccf65ffa703f875ab0bb7729a13fae72240cf2cf8d3f40d6c4c5a1eeac3e;
  0x11c81001b991d303fed2a82d5b9f81d3fc67e80452d4fa3bf494b44aa167aa1bf;
  0x13c5d88ac11b479bf254ebe07a3af3bbfc63c7acd0c572f3f1308d9df97bb2c3f;
  0x1486ea6ff0d7db03f6787cce81dd1a33f9cdb085b8e0f5a3f5fafee7680cbacbf;
  0x1c0509b1e1cda60bfeae4be48f418a03ff73b71e6c05b763f0bb7bc1a9ee7743f;
  0x1d1aa83e24136523f6edc682b02cca2bf8689e79946caa6bf7b4f6456b61394bf;
  0x1485cde23a23d6abf4f7c689353b949bf7cadb9c37a914a3f2170238a2c37a0bf;
  0x1378021504a28abbf5643ec604bb091bf70ce22fc991670bf5a70de78a55ea2bf;
  0x10ff1d7aa6e4795bf966dc031920456bf5c1f2563f7298abf9daa0547bdb578bf;
  0x10c520d4bd7e160bf13113b78672692bf61dd06f99c2e8bbf03a975a456ea5c3f;
  0x1bc8d8aec7423903f68c77154d0b6843fc8855d0485e1523fe4a77cd668147e3f;
  0x1a453c87204888a3ff8c15c80c8ce8c3f5c3fa6752db1943f2142da3bfc30973f;
  0x11098ab4c5397a53f65fd37adc449983f40ad05c1d28e7b3f26f4c5a3680eaa3f;
  0x1477ec41d0623883f1bd63f57b93c90bf26bd2f7bf842a13f25037e9bef75a53f;
  0x10538ac487ed5943f3ce26e842c4a5dbf94007dc5eb64973f06e357cea82e933f;
  0x114e86dee9a7a993f0fdaae9d0131a13f09ba61cdf3b0913fe4ed601e88d5acbf;
  0x10d5119cb68e7a0bfb6ec6a0bd23b62bfc34a9c49534b933fdf836452aba273bf;
  0x147b00e91f4a988bf300331e76bad9cbffea4339043dea0bf3af72ee1541786bf;
  0x1b3c57b9dfead91bffccf92ca3aac8a3ff5117b48c8198b3f14d3a3e9f508a5bf;
  0x157fa22693f35a4bfea6596231e1778bf1620ae71a4289cbffcd06aef60efa1bf;
  0x138844e7b0cc078bfba9fea6a665899bfa8dcd903bed6a9bfd4caebc6baf28ebf;
  0x1fa8a3e9c9c5a8d3f7afe5662a422923f24e255ccf6b2703ff6d4f24834ec9dbf;
  0x11ce0495baf0b9fbf8024f7c96def203f3cf3f445c96a7ebf9174b246da159e3f;
  0x1a265376b0ef9893f07ccace8cb1e45bf80c414e5f2bbe6be6dd97a02dd6a203f;
  0x14d2698e56d9ca4bf93061dd2b15da1bf5ea0116fd03475bf7f15be6a3b9a813f;
  0x18e825ed81419673fcdeeb7aa063743bfedd3c6ea966ab13fe45d36333b7ba53f;
  0x14e4f3a6a52f2673f8ceca0fc0fd1a1bf48fea3833de16a3f00bcef0770eaa13f;
  0x1fa9e6e6334109abfe4ab72103ccd96bf9c5b72779b2278bf46a4e1f9c7879ebf;
  0x11b75d7882230a2bf3ed398149e6395bfcf744d8df57f813fd2930f1b13b1523f;
  0x12d354b6c7a3d73bfb4fd560457bca7bfbca7253d9679abbf18a68883c3228ebf;
  0x1387542c9cb5182bfdc61a1cf383aa6bf3ba129c670f396bfe24cc76531d85abf;
  0x193c545a7059280bf53a2deee2cf46bbf5d34a3eaa4a674bfbc46d06b3b9b98bf;
  0x12618624e9d588ebf32fb0d8287b15b3fa2818640d158803f8b1b7d4201dd753f;
  0x10009d7e50e46333fdd1de59912cb44bfb5115de43c88863f7997c9e7f165783f;
  0x17ec243aaebb5893f02e5ee336075983fc2af11953b999f3f3b049e54c393933f;
  0x1ce25de45413b823f1faa2c63a0c9ae3f35b0a3d106ec963fa73728de37ef8fbf;
  0x1014361bc68d2963fca228711f24da63fd3252c71c6c29b3f26cff27936f753bf;
  0x16e75564d86b1983f0680905261b0943fa1ffa20870489b3f6c80a27809439b3f;
  0x178e494b4fcb98b3fc9f2a27d5cdea8bfa9234da5920b9bbff2644819e5f752bf;
  0x1dd77a5a8bd14973f061ab062971f67bfcdb1b4d9ba458abf2a95d00676b2a2bf;
  0x1e7add3ee6fcfa1bfa8ac200468ae85bff2f41a6e1ebb7dbfdfbdf9f6f3ec953f;
  0x12e62d4119603913f5c32fedc7095a2bf394200e3f7fda3bfb89380d50b3784bf;
  0x140d7b0d7e689a0bf9c1ba0aea639a3bf04548413aebc85bf8bfa7dbab1e993bf;
  0x1e9d7ad83d5d2a3bf6a6287464f1a92bfc41742928a578e3f01fe767e4389933f;
  0x1f27b5dc3b088793f35951f5f93fa9fbf690b6fb3d2579dbfeabf1c3e298073bf;
  0x14f7e8e002763953f8e8eebac3329a53f9c59ab859e4b913f9344758f5479713f;
  0x118d6de08c7ba6e3f5782c196b9da423f5a24b94392d69dbff349624759d1a0bf;
  0x1ff6d2a4af51d81bf4e64e631d1f6953fa8e1d3a9845d8a3f7cd1e7bce76a49bf;
  0x10b64f59d8001aa3fb137b766ec14a03fdc6840ee6cd054bf4652b7f80bfbaebf;
  0x12290bee7264f78bf95b8529d875f9d3f29183ba62eb68abf90f101265b9f8ebf;
  0x1bec922f0603975bf5a8aed18a434a2bfdac8ce3d1907a5bf48918cbfb66794bf;
  0x19e5b2f2224f8813f125527620c42603f5a5b9c3f02b263bfdc4c108ec82e99bf;
  0x11d2008a456d8a8bf4dd1fe397bb795bf]%N.
Definition file_154 : list N := [0x1934e554d5059010076007b276465736372273a205b2827737472756374757265;
  0x1272c20273c693427292c20282763656e746572272c20273c693427295d2c2027;
  0x1666f727472616e5f6f72646572273a2046616c73652c20277368617065273a20;
  0x12831382c292c207d20202020202020202020202020202020202020202020200a;
  0x10000000004000000000000000500000000000000060000000000000007000000;
  0x10000000008000000000000000900000001000000040000000100000005000000;
  0x10100000006000000010000000700000001000000080000000100000009000000;
  0x10200000004000000020000000500000002000000060000000200000007000000;
  0x102000000080000000200000009000000]%N.
Definition file_155 : list N := [0x1934e554d5059010076007b276465736372273a205b282773706865726963616c;
  0x15f6861726d6f6e6963735f6d272c20273c693427295d2c2027666f727472616e;
  0x15f6f72646572273a2046616c73652c20277368617065273a2028352c292c207d;
  0x1202020202020202020202020202020202020202020202020202020202020200a;
  0x1feffffffffffffff000000000100000002000000]%N.
Definition file_156 : list N := [0x1934e554d5059010076007b276465736372273a205b28276e272c20273c693427;
  0x1295d2c2027666f727472616e5f6f72646572273a2046616c73652c2027736861;
  0x17065273a2028332c292c207d2020202020202020202020202020202020202020;
  0x1202020202020202020202020202020202020202020202020202020202020200a;
  0x1000000000100000002000000]%N.
Definition file_157 : list N := [0x1934e554d5059010076007b276465736372273a20273c6638272c2027666f7274;
  0x172616e5f6f72646572273a2046616c73652c20277368617065273a202836382c;
  0x120332c20352c2033292c207d2020202020202020202020202020202020202020;
  0x1202020202020202020202020202020202020202020202020202020202020200a;
  0x16b54f41a19aa9dbf62fc643211659cbf7c8cbcab9846933f01274b600f2240bf;
  0x142381b6a03a74abfc48addcf3528273f6d3051f9fae990bfdaddb85b6c1789bf;
  0x17db928b37c08893f628bcfc156c5413ff0d25006a002413fe91b4e3d431837bf;
  0x1e292ce7da5ff623f4e5bdb95a5be96bfd027300da70988bfb9f4a1cafd3a943f;
  0x1d225cd7e7f037b3ff76cc6ec1e6d92bfd6aae894f7bb323f40ddd5e10b04193f;
  0x13ba0df57411031bf2c01f8c65e258a3fca9a5762ba64833f5ab1510a2f5983bf;
  0x101274b600f2240bf42381b6a03a74abfc68addcf3528273f907b4f139e6288bf;
  0x1d23ce0a49760a4bf8ca91c65b10571bf02274b600f2240bf43381b6a03a74abf;
  0x1c88addcf3528273ffbdfc2775baf743fcc1b3bbbb2279d3f71221321bf197b3f;
  0x102adaff2de683abf83f95357560952bf0cae179659b503bf0bc9a3fb31c37abf;
  0x124f2a85d4fdca2bfa14cb6a1118881bfed6bb6eeb5ce203f8e2e2c143dc42b3f;
  0x1b8eeb995072008bf1584071af5301abf1e77592c252b50bfcd07cdc9f65eabbf;
  0x127c303002ebba93e094c94cfe936c63e1f3d17b4bf612d3f66f49055d150fbbe;
  0x1e190cbf56f5751bfba166710dfa2a6bf8714140e9059b1be508d5600c96be5be;
  0x14e1445ef9e2142bfc8432001e45dfebed3933c5e54d8593f47f466599e1eac3f;
  0x1fed1ca56846526bfcccbe692d5d0513f4777b3e700858b3f79047b04c2b4a63e;
  0x18a2a1c33de0fd2be500587bc5ee60bbfcfc32c301be7e43eeb6c361b5f8a3a3f;
  0x19baa802c6752913f27c303002ebba93e0a4c94cfe936c63e1e3d17b4bf612d3f;
  0x16df70a69011e27bf904dfa1dc62c013f38797eb693f59bbf37c303002ebba93e;
  0x1014c94cfe936c63e1d3d17b4bf612d3f669217219a91183fa2b8e51cfbd934bf;
  0x15325a71b15c2693f905dbc50c6ebbd3e580297df665eb9be801868a3f1562e3f;
  0x17cf89e119f0d30bfe9638d64aa3f4b3f9d92409191d480bfc4965110f1b3acbe;
  0x118f090cdb3c7c8bef9a37c03396330bfef5b0e104ac49d3fd4932a85c3679d3f;
  0x18fc1ee73aabba13f1026cb94a01b403ff6a34b80cc904a3ff263fac1fa443abf;
  0x1aa94a62dcff0903ff64f725a5a428b3f5be89ce3bf60a03f5881c8f9a9bc41bf;
  0x1bb784fe2f0ac40bf4222ec8dc0ad4d3f5a52ccb5e9c262bf1192f74f2021953f;
  0x153ea1a96341ca6bf155ff4c1320e94bfc5d886e3b4777fbf4ec5b2e379aa723f;
  0x158e8eaf551c732bf971aa4fe0de317bfe580702f0d8d343f5d0cc48d982a8abf;
  0x1314e315b0d3984bfb8475f9d3e977ebf1026cb94a01b403ff6a34b80cc904a3f;
  0x1f263fac1fa443abf6ea7f31816bf883f3fbe58734c5ca43fced1e207801ba03f;
  0x11126cb94a01b403ff7a34b80cc904a3ff263fac1fa443abf453e47e0a11175bf;
  0x1e984c7ce4ad49cbf8d5a73d764fd83bfa4f05e2cf34a3a3f44df0bf1ad0f523f;
  0x1fd2ce23d9b6929bf93b8bdec0bc47b3f94bc16b4506fa23f9f6f7b99512e913f;
  0x1561aa6fd01b220bfceeaf5441e612bbfd0e133f63967333f62d9cd62fbe3a2bf;
  0x118782315f8859cbf44d09b58af8c6c3f40bf4c227071aa3ff19fa861a93383bf;
  0x1e6244ec5ee7a70bfd0ced85d1016aa3fc4fd1eb362fa683fdcf7dba0ec2571bf;
  0x1f20f101382ebabbfda34f88e1914a5bf0fd4ca141019753fba9e45d3ccfda7bf;
  0x182a138bb33348abfad1f06fb917e703fd8f03af1d9bc51bfd0678e83879c95bf;
  0x138b18dd3d4333e3f90a8c45a284365bf36a983ffe3e7a9bf5cecbe3f1b1a523f;
  0x11058c5ae3128b53fcc57856b1e42743f248a83b8d4d07bbf40bf4c227071aa3f;
  0x1f19fa861a93383bfe6244ec5ee7a70bf62939b91b7eca43f214c89e0e6c89b3f;
  0x1224f9a49c3156fbf40bf4c227071aa3ff29fa861a93383bfe5244ec5ee7a70bf;
  0x17eba9217c6bcb03fcd901c999bc4a7bfe74e39c66a5c72bf9fa88a8f321c9cbf;
  0x1c777a167f7a3abbffcd5d104c30e6a3f3098c6580ba3a43f435e0e8f344e9dbf;
  0x125a4154a86a366bf66c5638d4f979abf6ed12dc2294f733ff818db448992603f;
  0x171ec5935cc72813f10e5db8ac974973f3e5e3e60879c80bfa53b3b6d3694703f;
  0x130479efbb11c8e3f7202b1737f3f5cbf1c89242abc7a73bf1863a2361a7168bf;
  0x1ca1a7f7e0f76843ffb7e25fa402c883fb979d4ec7b3fa03f13f4e672680387bf;
  0x1e48f6d75ce5e863f53607105ab908e3f2ef264e034e492bf868765a0e4ff573f;
  0x1d8f662774ae693bfefc4779524888dbf444f53ff819a453f961f11beb1e981bf;
  0x1de6867355d957abf9477f9794f5059bf480461482ac34fbf4ebeed0ee9966a3f;
  0x1a53b3b6d3694703f30479efbb11c8e3f7602b1737f3f5cbffb1a27759269723f;
  0x1f0895843c7f4983f720c4d18c207653fa53b3b6d3694703f30479efbb11c8e3f;
  0x17202b1737f3f5cbfa8525cbcdd17563f4fce039ad3c069bfaec01dbafab574bf;
  0x186fb869f91d66abf8e6e4916365c99bfde1f02cdd3a677bf9790bdcc4e00713f;
  0x1f51c428b51d183bfb6553513f8df8fbf064a30da98d2763f9ec1585ce8b9943f;
  0x1467f66b0737163bfb86e1d1e6bfe2f3f5a558940f4423c3fa656a728419dad3f;
  0x16c48bf3c6e93203ff06e83f64ff0efbe0deccff78c0e953fd873a74d60b415bf;
  0x13c42c172d99a39bfe15b499fd6f39dbfafbf915ab8d21f3f8cefca7e5a1c2c3f;
  0x1a188a069ce749d3f0cf8dc5e1a2809bf3d67cc7f02ee463f01fe36f90c03943f;
  0x160ace64a9f84073f0ee8aff73890463ff3f278542dbca13ffe9cc6a5c40def3e;
  0x13339d2a10ecb2d3fe6d3284cf46a873fe06b47ea1ed00cbf7db1cdbfccfe30bf;
  0x17a4e4fa38ce193bf6c48bf3c6e93203ff06e83f64ff0efbe0ceccff78c0e953f;
  0x198dd4b5e0322303f69e14415be1040bf38c92481f566963f6b48bf3c6e93203f;
  0x1006f83f64ff0efbe0deccff78c0e953fe2901fad1f7f19bf9e9ebc00a2f43e3f;
  0x103ea6e228921633f728114cbfb4623bf7dd6eef12d7f323fd8387c9e5ca18bbf;
  0x1544b8347d53423bf143fa6f19051473f94197eae8dd26c3f10ecd8c5fff00b3f;
  0x1f09a743042ebdabead1e8c4354bf813fae81b2d493ce9c3fccb615e58a80723f;
  0x11a7c2146ea3eabbffde5305e8a94acbfc60cf00b19c275bf5aa5829eb2578ebf;
  0x1f2696da8de9ba7bfe06cdc8e9550353f73cc40084a02983f5367597888d0a53f;
  0x1c4c0931e05e2823f9ac35f355e3997bffff1813c636ca23f1415d6c85d2d67bf;
  0x1f84e4e5ef2f974bf443007a6befc3bbfb4ef99192867a43f323a84b1172d95bf;
  0x1441c942cf47a5f3fe21e66608544ae3f06fad93212c778bf4529006d56bfb4bf;
  0x156b8f8ac98736ebf397992afe482973ffde5305e8a94acbfc60cf00b19c275bf;
  0x155a5829eb2578ebf7c0efde62d5aa7bf83d79b19941eaabfe220fb5a352595bf;
  0x1fde5305e8a94acbfc40cf00b19c275bf5aa5829eb2578ebfe5e398c6c50eb1bf;
  0x17554bb8ebf22a93f949a1fefa0817d3f13b111bb929d9f3fb028710b8a16b43f;
  0x1a469e4e18a78903ff8c6165de0afa6bf621d9166283ea33f5a381b3a36548e3f;
  0x16ec6f4d6b0d4943fb02ec118048c99bf1a45a9a8990781bf54e1915b3334a2bf;
  0x1e015cf971e1a9cbf2a74740af7ee6c3fdd18e460b42dadbf02973d803373883f;
  0x150a7f4502874703fd86498a089eeac3f942acf926702603febcb245eb2f971bf;
  0x1d93eb7068cc6aa3f10e14035ceaaa43f7457fce7564775bfd422be6ef707abbf;
  0x161dd3bbeaf458abfb173ced48e1e723f981c742372c86ebf5827b05ac3a797bf;
  0x1331bed4e10b14f3f9097a6b09188803fc615348f1269a93f46dd8cf2810561bf;
  0x14946c87f1721b53f00721ecd3c62673fdb387cf95b417abfdc18e460b42dadbf;
  0x104973d803373883f4fa7f4502874703fdc41a901af16a83fe66e3fd1f1a2993f;
  0x100e8e688fcc871bfde18e460b42dadbfff963d803373883f50a7f4502874703f;
  0x1e912f366c2e6ae3f1627a1b98056a8bf4098709988726abfaaa3b57c11d2a23f;
  0x1466331c30c66aa3f2a4446edb7bf71bfbe698a4a0128a53fcdc21b4ba3a9a0bf;
  0x16b7e31045d1b62bff8988d9a67a4963fdbd2cc6711f972bfa8d16bdd2b8959bf;
  0x133384def8be77d3fde4f01b12688963f91bf8406b1627ebf9a54b36df2b96cbf;
  0x12f168615711a8dbf8c6eaef0766a583f468be5584a2971bf286b38137beb66bf;
  0x1e998d9eaea2c843f24635b47e94986bfd60991982dcba0bf30a4b8e2b1a5863f;
  0x1cc069e99ecbf843fb85263db58e4903fc55531fd36b992bfbc88e223db9e553f;
  0x17c62eb1b08ad93bf0cbb9c0d06c78dbf689e087952e643bf93c560f81e1c823f;
  0x10c0d647849687b3f2b824492443155bf6c314f4bbe4d4cbfdae5bc3026ea683f;
  0x19954b36df2b96cbf2e168615711a8dbf866eaef0766a583f965dee5c08d96e3f;
  0x1ec89eba62c64973fca073fa08b3e663f9854b36df2b96cbf2e168615711a8dbf;
  0x1806eaef0766a583f8c8c1a154837553fb9003167af2163bfdcc0b73253ee73bf;
  0x1baba990f108a663f0c4477d880c8983f1fe3332c2aa3793f7bd07104292e713f;
  0x186de842e20fc7ebf517203d8c62390bf3bd9ca1f840b75bf3a3ba956355295bf;
  0x14c3b0d4d1ae3613f4baefaaca1ed383fb30b769089e728bf09fb2e6b9697ad3f;
  0x115f0719a10fd25bf779c9ab4811e2c3fdde019b913a294bf7513e560ce9324bf;
  0x1e28fa1805e8210bf452f1faac1579ebff3bd6d8b69f928bfa9bb9f8d4ef3183f;
  0x1717dcd8892a59dbfd0b1cfb09b13f63eac139e775d2c3c3fcd3f84ed5fb3953f;
  0x1dba434633e7a203f3f99ab17e866333fa9a95caf5849a13f48e6fcbb716c05bf;
  0x10312a8cdd53919bf6a5416aab67986bf232608a86fb41abfe177fd29e26c05bf;
  0x18e15282068b093bf17f0719a10fd25bf779c9ab4811e2c3fdce019b913a294bf;
  0x1ed60eecfd7af323ff99e90cd60a945bfb5ff3fe33eab963f16f0719a10fd25bf;
  0x17e9c9ab4811e2c3fdee019b913a294bf19fc1291e64915bfd95acbb9793b3a3f;
  0x18c3340eb824d633f40f07b96fa1f263fa1b133621d6239bfaef5acd31e2d8b3f;
  0x1548698c7696720bf001bea9f9936443f1a9aa96359bf6d3f61846e1c4d9e13bf;
  0x1d6e6a32d9216193f3f53c233b76882bfe1899c34cd8a9c3f64c8bae71b0f773f;
  0x15aaa05bb2f9aabbf17c05998500faf3fec52d8390edb603f40a0a36bc4fc8d3f;
  0x15cce1a87ccb4aabf4c34b9d199b44d3fcc953bccb8bf983f52f8544b181ba5bf;
  0x1c038b51fd2607fbf364170518fa4973f2b87e0d439d5a53f58718fc8c9c870bf;
  0x1d01b1a9632077ebfec8d4fab60f1623fb86d1eeb9783a53fa65e62dab6ac94bf;
  0x18721b42e80697ebf227365627de3adbf6c0a0fd5e40d7a3f36329551a5c5b4bf;
  0x18a5f456333f25fbf0a876f587a23973f16c05998500faf3fe052d8390edb603f;
  0x13fa0a36bc4fc8d3f770418379f29aabfed39dfb8e92ca8bfae260e35d10095bf;
  0x118c05998500faf3ff452d8390edb603f44a0a36bc4fc8d3fcf5d53b4d785afbf;
  0x16ca0a0bc2454a93f36f3cf09d680773f46bb4578d250a4bff44e547ac44bb3bf;
  0x128c523f3d71e8fbf470b51015f3da7bf32b66cea4c38a43fb6dd28988e5e8d3f;
  0x125747e45e84d91bf0acc6e1e63f7993fa17e2c1c1621813f48ad9c074604863f;
  0x1845676de73caa33fbc94929a1fb087bfca9326e1003e3bbf164984273d1c60bf;
  0x1008c9853e0ab263f99e8d946abc57f3f1444067e9ab7963fe986287d01e287bf;
  0x1128b27f47e5d4b3f351e36853f99683f42fc269848714dbfa6022d0c6d9f80bf;
  0x132b2f6ba4e298bbf213eefcbb76a923f99c70d3f60a473bf64f459c2db11643f;
  0x1a3a6094d7200913f8d490b8584b5273f48738738ab3918bf2e7e6c80a28544bf;
  0x1e6427910e4da6ebfd1730e79bc0f86bf901ef2718631773fcb9326e1003e3bbf;
  0x1164984273d1c60bf048c9853e0ab263f3ce27681565a723f44f481164d1aa13f;
  0x1927a9b8ea26a753fcb9326e1003e3bbf164984273d1c60bffe8b9853e0ab263f;
  0x1081ff23ce5a630bfffe6b2648f758bbf89acb85fc99e7cbfa8cc17dbdb8d35bf;
  0x163a04caf35b765bf663690bd4a5d40bffc0b4be89925413f5a9fb1ce7f469c3f;
  0x17e7bb1678f788d3faeb8e4d21d70353fce59fade0c5b593f28fc742f4cd721bf;
  0x192dc84b87db7a3bf52bc78e14f73aabf269d29140637723f8af5e0efb7ad77bf;
  0x11bbc455741b4533f9c917f5100da3a3f65cbfe847de8933f64caf172c95695bf;
  0x1ab980b42a44f4dbfa249d1915b635abf6c30209439b361bf6a36465acd60283f;
  0x14e4cdf94bdb3ba3f249a72972b447e3f4d8d0cbfdcda80bffafdd981a22bb6bf;
  0x119759d16301ea83fe07f566633b6753fd2ce8a9c436f7e3f335820f8d38d70bf;
  0x1f287a4490ece3dbf77209365796ba4bf1dbb16572fe3a53fb139a4c27d105e3f;
  0x18af5e0efb7ad77bf1bbc455741b4533f9d917f5100da3a3f6007b82ae3fc61bf;
  0x1e07d7ac140c9ae3fb4b71dd69e9759bf8af5e0efb7ad77bf1dbc455741b4533f;
  0x19d917f5100da3a3f16e214e1f7fababf004b5e639053a3bf046a02bdcdd0823f;
  0x12adf9ec6232083bf762de0b51bc54ebfa688f0091668483f820911cfe64daa3f;
  0x1c3d3030298d7923f64165c201c5872bf9c907f400d8472bff4ff40b8dcd04e3f;
  0x192d1637b3aff343fa45c326166f457bfe88c62b22601a1bf3a416b3a5b6a8ebf;
  0x12736a95c6606243febebd5fdb58e403f82df48a329fa10bf5b61c9aaefbc57bf;
  0x1238a6d689cce66bfb8586ea572ff5b3f341e44f5f06a05bfa884906a40684ebf;
  0x1a5137fcbbb313bbfa0b54bc3843368bf816e2900fc218bbf805a1a1f121845bf;
  0x13af7370d9f53753f1b173bfa2d258c3f5dfec2b27bce70bf43d8517fd372533f;
  0x1cec4f6f6a9aa693f3a64951d2ea74ebfe10affb4343688bf116d77ec1f4397bf;
  0x173ca0bbf7a8e8c3f2736a95c6606243febebd5fdb58e403f7fdf48a329fa10bf;
  0x1f8b851ab435194bf326630efe211a3bff7d078017774983f2636a95c6606243f;
  0x1eaebd5fdb58e403f80df48a329fa10bf5c3e96ed832e61bf455f18d18d14a2bf;
  0x1655aa4092add8dbf42c32bfcf5683cbf22121966ba3e63bf745ecf512eab34bf;
  0x1947ef00575d830bf4135d8b6feb971bfe37af89895475dbf34f9fb062b1e44bf;
  0x1fb72cd085da260bf68dad537500e313f4a884ed31eec9d3fb6f264b502aaa73f;
  0x1b28374e57b7f963f16150ecb64c1783f70805fe377f3303fdecf3c09b3f840bf;
  0x175af085c195e9abf4079931f2890573f5d759b6c0d37863f164acf3ee7bf4a3f;
  0x1206cc6314581163f3d7caa93f978523f4c4e3fcd33deb7bfd069b3779a94933f;
  0x14d49e0b611a982bf005bf794ae10b63f13eda8a84c34b0bf0487ee39603a92bf;
  0x197cf4350d20482bf644e1ca69665503f9809b5f0f584603f5d77dad3b466ac3f;
  0x1819e5d0ac1f682bf79b02cd8a6f495bf16150ecb64c1783f70805fe377f3303f;
  0x1e0cf3c09b3f840bf55014b704afa913ff20bcce8aad1acbf20d4bdb7a5359cbf;
  0x116150ecb64c1783f68805fe377f3303fdecf3c09b3f840bf2886bee51295bb3f;
  0x102b2d106c122b63fa6467efcc05b893fa9fb5855daaf843ff2de6e819b53783f;
  0x1d0e73ae45e56123fb554a64ccc70aabfe6b27f11cc57a5bff06064a48ea380bf;
  0x137c430c4d0b0733f48cfffa504fb3dbfe62d7f9be4213dbfaa31e50f0ff28cbf;
  0x15b2812194724a4bfdcf6ae0c459e8d3fd64901b58aea1dbf80911f36debd3cbf;
  0x1da9dcebe3f7c093fa2682cafd621823fed8aa0f286ba943f5b94059436a287bf;
  0x10e9d444c03a526bfb9c2533baf833fbfc21fb680bc2b273f9bc7164bb29378bf;
  0x170ede8d8c6944a3f445dc16d5665903f5b966fb324ae80bf723b0f60a56e7ebf;
  0x159ab6035c854913fda323ff0a75f10bf5a770d3773df0dbf60d7d7573b03213f;
  0x1e66e946264c0763fa39e52a16a028a3f3eaf715790a77dbfd64901b58aea1dbf;
  0x180911f36debd3cbfd69dcebe3f7c093fccb38282d48a75bfa0a6b3980504a2bf;
  0x1bb74c7a7f36679bfd84901b58aea1dbf82911f36debd3cbfd69dcebe3f7c093f;
  0x1c493a622d876483f6109e69bd845923f1377b22b42a3803f59dc9fab8af2153f;
  0x140d9d74e1d78413f8532058628e3153f6909e20f457f533f3049829229209d3f;
  0x1f3399473f6848a3f44074aa85eea0cbfce1372d4c0c72bbf862179a304a2f83e;
  0x1b80b8be33c6478bfb689e44887e0653f2cdc6478464b393f7f000e7ba8b7fe3e;
  0x1d8266eecb040d9be0e0583e5f594c1be3f161a30540ea73fb4a1debd6856a8bf;
  0x19a2cc1634db361bfab20ae10efc84e3f7cf115f67f9c3bbf5296247987ec0fbf;
  0x18011b358b3ebb3bf8449e4f94011b53f877be93a478d6e3ff3f433548ceebd3f;
  0x11b53e9739aa4a53f18f6c1a578e584bfed02797770603abf6eeee68f861223bf;
  0x147b51b54186a023fbcc272551819503fa180bb682afe50bf63e7b1b2a5b708bf;
  0x17e000e7ba8b7fe3ed5266eecb040d9be0f0583e5f594c1be4fab6880f2e27bbf;
  0x1e0031aa0e7d808bfbaa356c58f46413f7e000e7ba8b7fe3ed3266eecb040d9be;
  0x10f0583e5f594c1bef431c95064ee643f9131bf2541324e3f81bdf7c2a5372dbf;
  0x1c771d89464f54bbff65947737e1d17bf86a684c4faea113ffaf2f0106afabd3f;
  0x1728a90cbb99fa53fcead3e5f43ec84bf105135a693fc453f437a22ae3c1322bf;
  0x1cc25a0e64f2b09bfc35bd5c01692943fc0df83a43ec6a23fbd1d72409f688ebf;
  0x1b6c93d96a03c163f1b4ad1f9e0223d3f896d7660f06208bf6830e5dbc996abbf;
  0x17bb81c894af29b3f82dff5ec090f8c3f68f99c3dae1f49bf1adab49817904d3f;
  0x15bf4d94435611ebffa7d647dee74b53f5f1b96876a46b5bfb58c1e55ff3694bf;
  0x12802c6bdc7d8bbbfad6be7c7c5d6a1bf34c1fe892f887bbfa4cf88735a783e3f;
  0x1444caa5d638a2a3fb2c4de6cc19d25bf951ff177aac67abf8f2e3b54a5e287bf;
  0x10d13d7a2ffd87d3fb6c93d96a03c163f1b4ad1f9e0223d3f856d7660f06208bf;
  0x18eaf7581e3b6883f21ad9bd23b0aa23f44a01caf213e773fb8c93d96a03c163f;
  0x11d4ad1f9e0223d3f856d7660f06208bfe5d672591a0c6bbfee0214a56a3793bf;
  0x11d98a694632e80bf3c76643f1337493f02dcdd00db283dbf86ec44a511e723bf;
  0x1207b30256748bebf85d7684ae717b2bf94305651cc6266bf9cb0b0bbed2d44bf;
  0x108474ac17eed363f122ac7299bb4f93ea6e3f0192353513fa6f706d2fb0397bf;
  0x1ecb079a7a256813f6b5c7300f6f1073f761b48c23e3847bfae8c7af018be22bf;
  0x1524d02ecdf6048bfaf4d8e3256618d3fff23e287947769bfbe0dd0b59f8ff43e;
  0x1de58e4429c503bbf8465908dc693243f0254f070eb3953bf40b0c8b14a588b3f;
  0x1adb623fe8dd08a3f99e7c77562655c3ff9970921e740a0bf16b6269a9f5a703f;
  0x158110e486711053fc348eafb3a1e48bf3e1e02796544183f3361430d067b4ebf;
  0x1f7682da4ff5d923ff34c74e17dd76fbf6a5c7300f6f1073f741b48c23e3847bf;
  0x1ae8c7af018be22bfd42d84d35170373fc099fd08a312413f528e18de77698abf;
  0x16b5c7300f6f1073f751b48c23e3847bfb08c7af018be22bfaa15c7751edd4dbf;
  0x1c1b93d9c1187803f81ff1a7667f68d3f4ac303628c6808bf48cc0a87f068433f;
  0x194a0746926143a3f8ef55f0c95e247bf4c9b901009707a3f0e7f192bcef6873f;
  0x1f0144cda2e93e5bea738f0b4d9eb243fcaac1ea227e3003fc48f37b2a824663f;
  0x17316f92606dba23f6a28f20210e18c3f0efc4c6c3cb522bf8c36547930c53abf;
  0x106a8e0c15d280f3f57e433f7a61a513f9b8b004f8a925b3ff26f767a9e4f52bf;
  0x14d99742ef9d7183f056f46a7b227553f55a843555633403f549a13a7cb7e623f;
  0x1e9ce5c3589dc813f08e0d0f8a3d42f3f07b146fa696d6fbff10d565c6ddb81bf;
  0x1f1f94c2c94c6663f91528a960e5e5cbfb995964e521e70bf6afa9d99df8e543f;
  0x1996bd5e46a858b3f592ac0c4ba2e963f3a673e938e768dbf0efc4c6c3cb522bf;
  0x18d36547930c53abf08a8e0c15d280f3fcb29333b7e93973fb84c67b574d7a23f;
  0x1bd5059e98e6899bf0efc4c6c3cb522bf8c36547930c53abf00a8e0c15d280f3f;
  0x14cc8c084cc34683f3e000b017e39a33f8cc6875316aa8c3f16d6948a6572453f;
  0x1a3372eaf37fe683faac0070c3d8a363f4345ba4c7d162e3fbd9946704fe5673f;
  0x168425b158bd0513f279c71298eeb4d3f7b3168f83e68653f7d4cf8dd68ea38bf;
  0x1184659b2ae7f813f01b44332ebe3ab3f7e4df764b1635ebf6d524741e035813f;
  0x1f9e4b5217e485abfcdce2bb8c4c544bfb8c87e3257e397bf49c7f7e985a1983f;
  0x1717c6dc69de7553fe8f47eb34030403fe6d209bf4bcd693f9f12af422a1d1cbf;
  0x15268a53219bdbabf98a435e06db18cbfd6afa409e1a2813f86afc2b28f42b63f;
  0x13ca84a7369e1a9bfa8610f2416de77bff870d4f02a0481bfd00265cdaec8733f;
  0x1402ce348c03e423fa6b5ede322bda33fd46745f7485aa4bfd781cce6991962bf;
  0x16e524741e035813ff7e4b5217e485abfcdce2bb8c4c544bf546e68f045db94bf;
  0x11880e7c415bcaabf281409634f80663f6f524741e035813ff3e4b5217e485abf;
  0x1cece2bb8c4c544bff2e68c49ec7eb83fdc8def7f865fa33fcff1ea82f24281bf;
  0x18755cf95fc5a883f8ecfa8bf2f2d583f791317b8a40550bf252f7e521da5adbf;
  0x1d6834d530d7297bfc60ca738d7e3743f48600cfc2e07723f706580b723884bbf;
  0x1960e399165c235bf7e4625423d3389bf50a71cb8799eb1bfd377e63e9e3595bf;
  0x1d9919645fd0281bf2c8097d0f44a663f78672c18c582473fdd9c6bc2b394973f;
  0x16d7b17d4ac85a4bfc09de6e194ab673f8008fcd6bcef43bfa63f28c5887b70bf;
  0x162df51b0a2d441bfcf8c30830a76ba3f90daef06668380bf02d5d5cb607996bf;
  0x19c99c7ecb9b8b5bfd8e1b4f5954cb73f308bee619cfe4ebf39ad5d5cdb7a843f;
  0x1e07f24eaa3d224bf6eb29f1586325fbf0803ee849124aabf002c9ecec2eb233f;
  0x1764da7426af9943fda919645fd0281bf2a8097d0f44a663f78672c18c582473f;
  0x17061c690ccaf68bfe4f3700d5a818e3fb03a0276a0e6a13fdb919645fd0281bf;
  0x1288097d0f44a663f7a672c18c582473f095fc770d804b9bf45fe0474645db5bf;
  0x11eea5ba3c5ae94bf259f1662ba9989bf3ea962d885f774bf4cd9bfd55ef02e3f;
  0x1b6f4622991e6ad3f97134142c2b28b3fdf360c95655192bfc26dcd29d7b975bf;
  0x15237ae4be7a95fbfbdc276bd3448463f412e98aaf5a092bf84e3511196769cbf;
  0x1b6d7851c8dc7903f2fe9da1259b27dbf04bf184a94ab92bf168fe472541e683f;
  0x14d09a23991a181bf76279c03e5b381bf9ce37ca4a882843f561a9c32df77803f;
  0x1770b6b3c8329893f3011e549bcaa7dbffc0e93d36b115c3f46b40937e0a792bf;
  0x1cea8bd7c838c88bf2ded30d62f748b3f2c12bde4f0e7863f1d288731e52291bf;
  0x15f9f81a6b157733f728936516d23703ffdc27d278e2578bf3f755a326f1a7c3f;
  0x1eb0077b5a5377c3fe522bbd5a95880bf2fe9da1259b27dbf03bf184a94ab92bf;
  0x1148fe472541e683f1ad7e3ec8c2979bf158746dd111aa1bf8cac1c8217a47abf;
  0x130e9da1259b27dbf04bf184a94ab92bf168fe472541e683ff057a6bf30a525bf;
  0x164f289017cf5913fdb3720441991823f1c964d30c7e973bf2a532baa0ae795bf;
  0x1deff683bc37365bf1078bbddbe282b3fdaa79d24a48896bfe887cc7de54b87bf;
  0x1962a6d7d19305b3fbcc6cf93cc17713fc9389d89b81446bf83ba015f61472abf;
  0x1e941c74fdd503abfe13ebe5bf112a9bf3dc8650f20330ebf245a84a24160f5be;
  0x13e1f1be3e03885bf7e69182a55af1abfce9e7ea3626f42bf0900c8a163e6a3bf;
  0x10052c0f337011d3f07b1d7beaf0b2d3fffa5a955c9ac9b3feb26d8e1f2301b3f;
  0x1ccf82e48b7164f3ff233493327c8ab3f8ff1d1e51cf221bf84026f904b4c4c3f;
  0x13f552a35a877863faa259e2df2b7fcbe4962d03d83a4263f96733a2c2efa613f;
  0x1d4e790f85d58033fe2fb0f57a0ba2a3f149fd8f757da8c3f36c8650f20330ebf;
  0x1405a84a24160f5be3d1f1be3e03885bfa36147bd0bdb2bbfde8539a78abc303f;
  0x11cb26b1186ef99bf36c8650f20330ebfa05a84a24160f5be3c1f1be3e03885bf;
  0x1739817ea34e8133fba08069484e733bf50dcb229c7cc483ffccce061e6401bbf;
  0x11661786a31ca263ffe88a9b25b7685bffb5dff02bf752bbf2b9dafc5cb744b3f;
  0x1822802b7c61a61bfaeed933f9a17123f403b1d04b29cf93e88572290836d893f;
  0x1b631566d84d5923f8c009186d9df9c3f06537bcd2aafa03fbfb4f952bfee7d3f;
  0x11b60815aecb0923ff1f6c38c97627e3f203af6e3efd6813f6311d42ddbda823f;
  0x1448e51f1728b9d3ffa9a83a2e1b180bf3b6a66fbb19d89bfb36130431a4294bf;
  0x16b91b0017bc45dbf803cc87c2aaf913fbec9195406a5a5bf67a59962672c8bbf;
  0x15402c49db5ac88bff6f5c75b449c773f390154b4f93a73bf840c256b91d870bf;
  0x16412c122ee506e3f0f974bee1f417cbfca802fb87a0d7dbf5ef83a445c0379bf;
  0x1bfb4f952bfee7d3f1a60815aecb0923ff0f6c38c97627e3f2712ce4a65087a3f;
  0x10914f8c798f8a03fa06ef9f8454ca03fc0b4f952bfee7d3f1b60815aecb0923f;
  0x1edf6c38c97627e3f6d1735952c62173f41da39efdda591bfa065bbb6e51d84bf;
  0x15019d5c9ca56743f6862564776b9953ff6c883814cd38a3fc07af9500940c33e;
  0x1f12a70c6fdac953f08128d2b97928b3f7169662193515cbff7e3d345693171bf;
  0x1fb838807380c88bfb2753f465e8ca0bfceeef6171b9d91bfee9dc1b0597b683f;
  0x1caaba91527b8a13f42a76b17c7027ebf5c1a18599fd063bfcc82356478a1af3f;
  0x118cd9b80e8da64bf4e494e4fb2fe72bf5209bc910f6eb4bf2f2b97b9c5bea5bf;
  0x1a61ef3536f397e3f424374a20d36a2bf5647169f48f185bfde04bdcf5be6683f;
  0x194c98197750693bfe8cbff2e0b4f8dbfc944ff9c5b585e3fae81e63d27f4aebf;
  0x132712e4aa9d7a7bf5cb721f97daf783fc881dc84acd7b43f9019f1a1f17b6bbf;
  0x1f6d1bad45c0879bfcaaba91527b8a13f42a76b17c7027ebf5c1a18599fd063bf;
  0x1b6375de7defca33f0e9edcbc4828903fb5bce05afc536cbfcdaba91527b8a13f;
  0x13aa76b17c7027ebf5f1a18599fd063bf3bd1faee09d5b13f844a4ab65bdca3bf;
  0x11f20650cf1f370bf46d996fb39bb913f2818012bc67cb2bf60edb6393a804c3f;
  0x1c7e2e26ef20fab3f6187433b12249ebf3cd9c25956ba69bfec2123cbefcf83bf;
  0x10b30ba841cc7603f279d456bc527463f1d98d41f914b803f8834b14221e7913f;
  0x119f1814e65c47dbfe9de36604288743f0c807c13bdf88f3ffa1cf4b97a4d61bf;
  0x1d2edfaee9da761bf8ff988d507777d3fee9051dfe923813fcf2462a3f2658f3f;
  0x1186598747b3fa13f300de6a1a5ad8cbf108428471519863f4a9205f37c7e833f;
  0x135ddb3d28de391bf26b9703ba8f5403f66ddeb18190397bf146232cdd0e98abf;
  0x16ca6402c6fcc333f42c48ee83edd8abf240fa518256b7fbfc74cffc0826445bf;
  0x19cf0045e05da613fcbf50253ecc4643fe8de36604288743f0c807c13bdf88f3f;
  0x1fa1cf4b97a4d61bf2af614ae548f723facb5ff08d6eb953fda26911d036e603f;
  0x1ebde36604288743f0e807c13bdf88f3ffc1cf4b97a4d61bf01cca41035cc623f;
  0x160b8975140a223bf28e795b1cffe73bf2e16c1278f906bbfeec8ebe3615a9bbf;
  0x1d493484ba6de7dbf0c24a232c5067f3f10619fa5073440bf3dcd5acd6a8090bf;
  0x1a01f002a8fc77e3f2c16bc2ecbf6973f3c0b272b26f069bf0b98ee9cdd205fbf;
  0x152033b7efbd1853f5b945b5c5047a63f1ec64878bb8c46bf752d50e73f50703f;
  0x1f5234016c597933fa70bdaf6ec8f503f9dd50c7759a576bfd71a36f019cc93bf;
  0x10cb08819314d53bf4e2130ef4f0f7b3fd158e661d1a09b3f5208ceb6877e51bf;
  0x1ad5ede5fa007773fe211676c50ae8d3f84467de0179054bf488337a63f787b3f;
  0x114bb3912442c943f3e4fb75a92413fbfff841eee9be0643ff15443cdd4a97e3f;
  0x15e20b2a3e74c443fa0847d79d9c16bbf78964a57014488bf1fc64878bb8c46bf;
  0x1752d50e73f50703ff4234016c597933fbdc7716044383fbf456368d32562693f;
  0x1bf12b34d5d19973f1fc64878bb8c46bf752d50e73f50703ff5234016c597933f;
  0x17088a0d296f836bf114f17cb2da45b3ff0c6e49193603c3f3abe81071ce9323f;
  0x15581a46d1b5e5fbfce9f79ec15168ebf6d7ba4aab6bd42bf14a1c27b248d663f;
  0x180c46108d926473f7eb8b50599f936bfd1de20f8019f603f9883952e5cf6833f;
  0x1d78863d601e59a3fc68eafd3076686bf1770974d7916a4bf8f64cf73fceea3bf;
  0x126c36e7b791f89bf143abda703e88dbf4ca4fcec7d0bafbfd0148e0e2fde4c3f;
  0x167c9c128a3f38f3f78e7b50186ceb03fd41e8c7104d6613fe219f0655ad894bf;
  0x10125c11c79779a3f95f4bc07092272bf00584c77dd6510bf3318aed3c9c7933f;
  0x188e2ddc68ecc9e3fadfce0cac23981bfff6e4384110baf3ff2397045ef40ad3f;
  0x129fdbfad2dee77bf6fe7a14e7dd5b4bfcad6b4dee2b1723f0042e7acf4968f3f;
  0x18f64cf73fceea3bf26c36e7b791f89bf123abda703e88dbfecf25ef45810a6bf;
  0x111b024c031a0a4bf042009269e9c95bf9264cf73fceea3bf2cc36e7b791f89bf;
  0x1133abda703e88dbf1357ad007354b2bfc3274388dc12a33f6c5d6ec25b96813f;
  0x1f27a790d99298dbf699cb211d7d0b93f713d41b7b29e953f5a958c3ad4a5aebf;
  0x1482ef8e80dd49b3f401a50d07efe923f80ff42f9d38f643f077857fe8e239cbf;
  0x1373500f59db97dbfb1a16a8dd074a8bf6cc5855c3777a0bf3d705be3ca31723f;
  0x1eff21af0b547aabf101010cde010833f96f13cf04863703f79c941c07a1ca33f;
  0x11eb506a61e4d723ff0da0c80ad7469bf0c46415e9228ac3f50a044f34ff5a23f;
  0x16df714abe2f274bffedfdf6a0daba9bff253aa33043e85bf498688d9f268713f;
  0x181542a02f1e5873fcb9905bb6e1996bf9a18e7f0429342bfd8772a329dda9cbf;
  0x11160101b9caeaa3fcbaf0d335b6d563f666d1de4640ab43f440f8d61f330833f;
  0x191dc152c93b17abfeff21af0b547aabf0d1010cde010833f96f13cf04863703f;
  0x196ff1605a6d8a03fbd6f21348fd8a13fb857262de6e56abfeff21af0b547aabf;
  0x10e1010cde010833f96f13cf04863703f6684344bbe1eac3f136b66d46700aabf;
  0x1042f60b0b62e6dbf8b17d8bfbb53a83f98f4a7a84760a73f30b2c4ec7d1573bf;
  0x10817267ae9d09a3fbb903472b9cb98bf387a442445d45bbffc40ab7bf04aa53f;
  0x106ff2e9f30e57ebf5f63d877398e6abfb7d79e8ee5e3883f207cfb458a869d3f;
  0x1184ec730e93c87bf4e39199a3e4976bf1af944e6526d92bf9a453c49e8e4623f;
  0x1fda93d1c363878bfd70784f80fd876bf4dc1b0880fbe843fbd1bfdb0e32f86bf;
  0x19d77c4e6a8519abf97fdc755d7b6843f0b313a5d3068823f8eee1ad9f194763f;
  0x12a2e445d526b91bf6e09d5b59c8c713f12caa3c5169184bf83826c025bc18ebf;
  0x1251c033c175d5dbff839eacfcd34713f2b8fc216e5ba793fff95b5f11abb66bf;
  0x16618ba079a7065bf5c70f24bab77733f4d39199a3e4976bf1af944e6526d92bf;
  0x196453c49e8e4623ff41e56800345783fecb9bd50b4b39f3f94df2a1f0f2c6e3f;
  0x14c39199a3e4976bf18f944e6526d92bf9c453c49e8e4623f31ad56a5254d573f;
  0x15ab190e6ec457bbf46424e19e2d77bbfda8fa3ea830f6f3f9aaf4dd91cd1983f;
  0x12937677cb488733f339c9d59d1d3683f748835eb2f0f8dbfd5f12a3fb4aa8dbf;
  0x138b87cc9408472bf1a06bf5adc9e8ebf06d89a2993655f3f72c28aab54d2503f;
  0x145108eb2975169bf1ac60d5145ddac3f0accfa236dbb37bf60f796bdbe3d523f;
  0x18a2cb1dde72193bfdd4dfcca53aa40bf1ed02369bec1583f450a362e33a69dbf;
  0x15e1b46408e083dbf5c2a264d7cd9553f9b0e4336cbe898bf5357f48bbdf0293f;
  0x1e89f9eeabef340bfdac0d146bb898e3f91e921fb9e7d453f30eaba6c258b5fbf;
  0x1c1b63f5a55bba33f265689731dd92abf4fd9209118b4433f0da2cf5d93a688bf;
  0x1a6d5ede3202038bf11fe760067eb513f6f3b1a5cf57595bf0bccfa236dbb37bf;
  0x161f796bdbe3d523f8c2cb1dde72193bfba40347f91c93a3f8795c9c89bab55bf;
  0x19bb6e35ead1c923f0accfa236dbb37bf61f796bdbe3d523f8b2cb1dde72193bf;
  0x1d0bfd0b1d199f4be1847297a4c90203fb69a01ae6490633f77a6489c64e9303f;
  0x16377ac441a134bbf2278d699eccb873f50ac0bca1076fcbe50badf9033e2263f;
  0x1d2795d8f5d076b3f9ce0020dff371fbf6f7b2b09e0fe373f317bb60e032b79bf;
  0x1af95668444b5a13f024387a55d487a3f9c6047614454a9bfb10fa69d5440ad3f;
  0x170068e4f1a047f3fe2cef430f158893f03461c5b95a59fbfe814ba7ce4573abf;
  0x1fc44df19c175963fe67281558862a6bf52572e891ded89bfab4d243618ca933f;
  0x1645f059610f7a43f538d8d6b8e05763fa89e36e43f9e61bfe97b63a60c0291bf;
  0x1bc96513a562da13f7cf3c11b638197bf46bcd1e020e69e3fb52a52370624adbf;
  0x1fc4819d8eaf6713fe0d2abeb6b3cb3bfed68adbf391280bf7c1623546f44973f;
  0x1b10fa69d5440ad3f76068e4f1a047f3fe8cef430f158893ff52b2098d916a4bf;
  0x104001d3f8682b0bf9647247d728592bfb00fa69d5440ad3f6c068e4f1a047f3f;
  0x1e4cef430f158893fb8ff283e94d6acbff757be249558ad3f36c63e8d8553803f;
  0x1d6e1bac78666aabf430d1ed644aeb1bf9ebaa7e1870588bfa347272146e49dbf;
  0x1c0ca5680c692a33fa822dc7f65638a3f8528f562cceaa2bfe09406d5bea8963f;
  0x1dff63b00bb987e3f6d64fbf1f3d7813f2159dde1f0f9a13f469ce1b00e7284bf;
  0x1eb348504cd815d3f8107f6d87089833fbcec98a7b3c947bf17f4d10732d4793f;
  0x12d3b91645147933f423fc7b1b7b386bf6b32feba2ba770bf15b70d20e4c690bf;
  0x190aec9e3d414733f9c6647857b2f80bfac328cf1260491bfd96f91d1146a923f;
  0x12eef0873d5826dbfe64e2992e53d793f43fec7fca4a3903fb9b7e8aff81648bf;
  0x1c4c21209d09a543f821a874c402a6b3f8fda69cc609766bfe818b219b1dc80bf;
  0x1a17681d03cdb733fec348504cd815d3f8107f6d87089833fb8ec98a7b3c947bf;
  0x17daf4337a9276e3fdb57e17b4f459f3fac48df8bae6d743fed348504cd815d3f;
  0x18207f6d87089833fb8ec98a7b3c947bf0a7282025eb8303f9099d13196d783bf;
  0x1c00bfcf15eed7abfc86cb8ec8992563f1186678dd1208b3f88c478dad803683f;
  0x12646b9a5c91d43bf93484c228baf963fae8a28f342c98e3fe936024a99485bbf;
  0x142e39e20911082bf408518f6d2fe453f26d21495a88a8dbfc8ae0d8bcabfa9bf;
  0x154654c632608413ffcd1714c9ee2a33fd4bd2601396d6dbf2dd14230bf0370bf;
  0x18adbdf4e8bb7853fb46176f7b18a91bff63b7006b94456bf62b002760574743f;
  0x1653ca0e5d6d3913fd896643f849527bf3235740bd893b43f849348eaee07953f;
  0x158e43da33c137fbf824e10dbd049b2bff9cc25866fb4a13f5a4a5276bf867f3f;
  0x190af95d2655ea7bfa2370644859f963f48aedac16024743f3402e0374e0a94bf;
  0x12ad7c0cffa2fa03f8b0edb85958c643ffcd1714c9ee2a33fd4bd2601396d6dbf;
  0x12dd14230bf0370bf60d9caf76e07613f4a1219fb7455aa3f90768323a2b1473f;
  0x1fad1714c9ee2a33fc8bd2601396d6dbf2cd14230bf0370bf7fe690a91acea9bf;
  0x117aaac29aa0ba8bf363e81309df6703f6a5da63b168faa3f12ce54dcfb37903f;
  0x14befcfdae0dc73bfa5d0de9dd1f69b3fb7a3543cb10e9a3f3a9d4bdbf26162bf;
  0x19d055681e6ec993fe8ec9779b92e63bfffd2d5e30ce164bf883d1d4b80715dbf;
  0x135d8215f683fa1bfee41c4e4d8538dbf091220f0b81651bfd6279ecd50ba6abf;
  0x17ecf719e03d13c3f95943b60f05b54bf85b23dc33f6160bfdc49a0a77f32593f;
  0x13b28ead92a92373f6af916a0889d7b3f8336fe886d7a673f3be272eece5967bf;
  0x1d8f9431be8f488bf3c4ff0c0972d42bf25884970f532743f7b09e8b695e5883f;
  0x1e88c98ce4f6b6fbfa57fe6bd005a81bff45304eb176395bf1acc65e46ffd7a3f;
  0x1253703b2a4d885bf335dd2278b9391bf90798257ac098b3f091220f0b81651bf;
  0x1d6279ecd50ba6abf7acf719e03d13c3f6fa12858fa2194bf264a6091861ea1bf;
  0x13f4a1c9549ed973f091220f0b81651bfd6279ecd50ba6abf7acf719e03d13c3f;
  0x1cc816680960f44bf6983dcc133b39ebf2aa88980bb598ebf48a04951fb50683f;
  0x122fdf3744c26903ff749575a254b623f7eac9211ffb112bf236f9733359c6cbf;
  0x1e85dc317d4485cbfe8d0b5149216723f51120a137a4a8c3fb661cd3f72805ebf;
  0x1d42afa58c9c17e3fdc2d52084205a93fef8bb897b25a983f13fb14edf645a4bf;
  0x15a38139539fe65bfcdd14e6be52f713f82b16023130b90bf003637d322e2333f;
  0x1853da1ddfe55863fea818ca2f11755bfaa0e61b653d17fbf1ba54d865f157ebf;
  0x14db157231ad3b1bf2838cb2958ed803f92e874d5b12784bf79fda32fb8f2b13f;
  0x134f924a69115abbf3c7f89e0ea9794bf58f2cee44115ac3fd07e98ccd23064bf;
  0x1d2034266785b8ebf8c6c3755c6e4a03fb41259ab477879bf41fc9c10380d95bf;
  0x113fb14edf645a4bf5a38139539fe65bfccd14e6be52f713fa6a08da42e788c3f;
  0x11274a92796d9a8bf1e38304942c69dbf11fb14edf645a4bf6a38139539fe65bf;
  0x1cbd14e6be52f713fa27b8d47e8fca93f18a987cb942db63f7887a3308eaa913f;
  0x1d5ba2040bac8acbf1e47fe8b58f7a6bf507f81f9e3a934bfc7739f51314b9bbf;
  0x133ff16dc5a95a6bfa2375db9aba786bf6856e37101be9cbf54cf1450eab865bf;
  0x18a62364691a16e3fcd72664b519b45bf779c0b0892d4633f78c8b74b585785bf;
  0x17143f4c2989decbe18f3f7c944430a3f9f4750bc70412cbf92abe63edacd443f;
  0x1d974e18c091863bf24e81a12ab8d843f26e5f0a9168005bf6e4f747a94bb233f;
  0x1df1d3353733c45bf2119b17f4edf4cbfc8776ee5ba7f6a3f5baaa12033878cbf;
  0x162981e2f1bff2abf4adb61c479c7483f62f4ee1cabbb6abfe6a42374e0c1d1be;
  0x15aef5b85824cf03eef1bfac4849511bfb1861ff5f7802b3f61a7423f293e49bf;
  0x1bd9b6c5a1d2c6b3f7443f4c2989decbe1bf3f7c944430a3fa24750bc70412cbf;
  0x1f00902d4c1aa33bf265ec578af0c523f7c6c534d326873bf7443f4c2989decbe;
  0x11bf3f7c944430a3fa24750bc70412cbf7e83886be671d13e2894e0755af8efbe;
  0x1dd2720a76f6b103f5ed8a7f60f5fec3e5faac947a4090abf2e96c92649fc2b3f;
  0x10190f33c1864ea3e1ce3b119b82e08bf8aa67ed308d7283f8c706c9bda47f3be;
  0x186d1c82904b2113f64da93bac20933bf4d05c533fcfc92bf9b97ffafc511a3bf;
  0x1c0ae603fc9f68d3f9562141c8a671dbf45b87781a81e34bfd0a36ab1004c083f;
  0x15f4a0f720197893f21c5a1bfd491933fc269bf8243848abf9f2e158bc1452abf;
  0x1e5d5d97484623abffd9852f1b9ba243f26ecf9bbd71287bf0c42e4aad64373bf;
  0x19512a57c1393923ff7c70390ce5a7ebfe858c9c163f5773f22b1405d7ff1903f;
  0x13d2a098255b505bfe6d94c8c5322013f5ca81210f83b183fbcec995212747a3f;
  0x1f25d04b7e33a843f7cfdbe0356697bbf9562141c8a671dbf45b87781a81e34bf;
  0x1cea36ab1004c083f3aa84a3ba03482bf45e7ee40675fa3bfb6f4d2637a026bbf;
  0x19462141c8a671dbf44b87781a81e34bfcfa36ab1004c083f1c390562881b593f;
  0x18726d2e64f20923f266dafc66df4793fbedfdfcd38d3193f5c17d15332b83c3f;
  0x18cb5c6b16545083f5dfcd4bfb649683f306aa1b8d588a13f4b55a695871b893f;
  0x110e4922a6cd814bf207163e6ce862cbfa08992d27b39013f4239946f4b3f953f;
  0x19ceca07a18e884bf030336f8ef6c51bfc82a8b01ee27603faec11d952e1f3fbf;
  0x1429b849e300820bf63e2cdbf00c3a43f73cf2fd491f9a8bf233f5047c9a24bbf;
  0x1db3c5be954c291bf657498b07279813f533e7e322e214d3f86d316b152ccb1bf;
  0x1dd86fd90c595b53f9b566b01f535573fe64d66dc4808c03f7181f69a2e28a33f;
  0x14cf29bb8b8d685bf534b43087389803f12889d2685c2633ff77f655faa8646bf;
  0x1b6c4b969109f69bf2b48662916d26e3fbe24035b600d113fc82a8b01ee27603f;
  0x1aec11d952e1f3fbf429b849e300820bfe0e2a4a512a6993f2822c71ddcd74abf;
  0x1e75d638b4c1c5dbfc92a8b01ee27603faec11d952e1f3fbf429b849e300820bf;
  0x1f298a3e3b6e583bf7910a5ff628867bfd0a042deda0f4b3ff819d9c29f44913f;
  0x16cc4ed8229c74f3f0eca90c8a8aa54bf7726003e961fc03f83b86ef2bc11a33f;
  0x1ceabb552d8ed85bf84e27c6d0e078abfc124e2cda211693f26dff148ecd3493f;
  0x1f00540174b5759bffb1827ae820ea73f9e9788d24bc769bfe026cf2f28405ebf;
  0x1c83dab3eb7fa473ff61c3d97501b333fa94f4d85f87babbf30042d0d2862a03f;
  0x14116661414c36e3fab5fc677a001923ff476dbde4cf580bf668d3fb7d2263abf;
  0x13d7395456ce8b43f7ab67afd8535b5bf45cbabf1640b77bf00d03442651dbebf;
  0x1fb3341faf889a6bf80cba6ea6c7565bfb4bdb276857180bf5873d979a72764bf;
  0x1696e02f6dbb1453f2e0dccba23016dbf87c569ad865b8abf154639aa231e6b3f;
  0x1e026cf2f28405ebfc83dab3eb7fa473ff81c3d97501b333f9b86af80173d90bf;
  0x1ddd89f35613aa33f29df0a514118843fe226cf2f28405ebfc83dab3eb7fa473f;
  0x1f81c3d97501b333fbe80959a17c0803fca901df788568ebfdf4114e116987dbf;
  0x1d3cea5ddfe6191bfbada2c34544156bf9c612976f468503f376e60a92681c0bf;
  0x11ddb847e434ab2bfb820f5315b885cbf84be1f33633a8a3f3b34ca00c6d667bf;
  0x18e1ad1a8a26241bf36b460e719f4663f51c75e37e01a93bf91fdf21ae8c5653f;
  0x142ba84eb4d143cbfd63e4afaa7b0673f7a8633840f74583fcd424fb1dbe25abf;
  0x187079757686d863fee0bf421da4b39bf69e2bccb335e35bf9345535a08c9613f;
  0x1b750a1dbe14434bf800ce3479ae149bfeef2110efbb8763fe3bd62fc06488b3f;
  0x1bf633b7b40d96b3f1c8f375c114697bf6382d435e5d854bfa5fdbd589f753ebf;
  0x120fb53aca374693f947c0c503bcd263f1396abdeba965fbf68762236a1598a3f;
  0x1e9eb14f388b83dbf41ba84eb4d143cbfd53e4afaa7b0673f7c8633840f74583f;
  0x15c5add9ffe4f31bfa036ebe8450b593f1c16ab79528c87bf42ba84eb4d143cbf;
  0x1d63e4afaa7b0673f7c8633840f74583f87e7d95ab4e931bfb70f654d7332613f;
  0x17c72728cf9618b3ff2bc44a26516333ffcb43e95446260bf18cf2cde0bfb65bf;
  0x14af9529f0f7e2ebfacbfb6691d465d3f7207c64b664e873f7336021ad72e123f;
  0x12ed602486dae3ebffc8ea7837fab2fbf202dd1696ca811bfcbf38b79bfc49b3f;
  0x10a42b0b25e708f3f10cf2f41c9f7523f1af08d83c19a713fad78cb38da2940bf;
  0x171f79b1e407e603fc4eb5d14a831713fc65a217d3f0e66bfd0ffe0c91372e53e;
  0x1c1811925cedc70bf0b05dea0641763bf0892619f733b703f9c0eba2e88e0943f;
  0x1b85d68022865583f1a77335617f37dbfc597fb2437fc95bf2d09686f92c6793f;
  0x17fd0b109daec753f974b69344018903f5df013cc9ede72bfe3f7db6f1de2833f;
  0x1650588ae65ba943f3d7cc50ccf968abf10cf2f41c9f7523f1af08d83c19a713f;
  0x1ad78cb38da2940bfd7112083c877903f2bbe1f4e5c8ea03fa2625e13e6b496bf;
  0x111cf2f41c9f7523f1af08d83c19a713fac78cb38da2940bfabd14a9649d7453f;
  0x185c5bbf2f98e9e3fc546a6c06dcc8e3ff53ef237cdab5ebfe4659983000f88bf;
  0x12fbf4aa965f05ebfb661a218f91d223f848990b52859793fd531c03d228c693f;
  0x1ffdfccff20e265bf08acafbd734f84bfaedb49f7d8a5523f8256d97ea216b03f;
  0x11db447cdaa25a93f1ec79c1ababb77bf5e3fad5b2c4199bf7ed32320ff70703f;
  0x1986d734346bb603f30b82c05bcb883bfc0eb085f30358b3ffd8dd8b2db50463f;
  0x1f8c167be7bad8fbfdc0c1571ccc188bfe4787824795d573f6ad3143a29d4b3bf;
  0x1f0c7cc31c47e7fbff31a9e5690197b3f666e36e15a26b13f4a2d6103a4f29fbf;
  0x18f7888c0dae575bfe725160f0cafa83f4293236dc4fd96bf7aae60a084846fbf;
  0x1ee8749bf28d59c3f0bdd9a997de3a3bf398b1a4f0c5060bf5f3fad5b2c4199bf;
  0x180d32320ff70703f986d734346bb603f729a7498b982a03f9cd915bf2189b0bf;
  0x15e69a8a2b60b61bf603fad5b2c4199bf7ed32320ff70703f986d734346bb603f;
  0x1b92f346e6851b43fcebd1cdc35c5a73fea28a9196f567dbfe286566eb5bea8bf;
  0x1bc02883e416e82bf7c66942c9714713ff74fb3748ecb9bbf2439333c4d4290bf;
  0x1c2eb89a72811643f330b587f354da0bfa6193269bc39753f76754e99a099653f;
  0x1d9e7f932d9c9b0bf5a4a5e6e9a7aadbfdf9d1eacfb0389bf565548ff0082983f;
  0x182716b500af286bfaa525a77d7ea68bfaea2af7387f5823f95746760b61d9dbf;
  0x1c4b8a9d483a3633f6698e96b8829903f58fc0c6df1bd8c3f60e52b9488e2533f;
  0x16280ae343504b33f5c59cbe515af92bf8a6bff13baf095bf1212ad6ff325b0bf;
  0x10b1525213b4db33fb0ff58e91958353ffce39a11bc2fabbf38427e197eb76d3f;
  0x1dbf1e1a03bf5803f3f65a6e46566a2bff4e571a6137f773f6ac6246896988f3f;
  0x1575548ff0082983f82716b500af286bfab525a77d7ea68bfa8e8c4dcfd9ba8bf;
  0x1b23689011a779f3f6e7d4412434ea23f585548ff0082983f82716b500af286bf;
  0x1ab525a77d7ea68bf74eb054d2d6bb4bfc6782805ed0fb4bf661222e097c195bf;
  0x1608fd10ce78da93ff08ab873e94a973fbc0d4bcd82503a3f27b1c0a14ee49b3f;
  0x190556770422f803f6c478c82dc5a91bf18d8c72340a2a13fcd6bade61150753f;
  0x15deab81cd5f16cbfe2858033fdf39abfe2771204d80d91bf155a8c8ad016933f;
  0x17719ee10ebe578bf1adacd4582ff82bfd0d135d0c45d613f87bb860684c18dbf;
  0x16e1e1686677e81bf90632271649c853f246b9dc5db09743fb3659ab0a65b693f;
  0x18ac35dbb4a626cbfc2268437c8407abfe9f70a7d8918a1bf576e6d6e3cc27dbf;
  0x17c68c32b4dca9a3f332147a13bb5903fd8471567551293bf7f978c5a46d6733f;
  0x109a6e80436be683fce82a808503e6cbf354a970bc1a28d3f8dbdf5c0516c813f;
  0x197e4680f0d8685bf7919ee10ebe578bf1adacd4582ff82bfd0d135d0c45d613f;
  0x1e74226d22c3b7bbf64e30d1fce3ba1bfacf9e7beae427dbf7819ee10ebe578bf;
  0x11adacd4582ff82bfcfd135d0c45d613f0e61c1818114763f3d98a5184240a03f;
  0x19c95947e900e7f3f61465803c29b73bf9ce46f840c4c89bf3c37dac990ac37bf;
  0x10a7d63c16c2b76bfafbcd5672051a0bfc2093f1bcd2e7fbffad26988b5caf93e;
  0x198f5377615ae033f525fa05a59fde1be40984c5a15d4453f1e32842c5f3573bf;
  0x1b9efa6f5ffafacbf8f1495d736cb123f917fb40dda4342bf7482350b65b37fbf;
  0x12954642d07e0413f8eee9a5858bb6dbfc9b56c517cfda3bff3ee86b1eb2b28bf;
  0x15cc4339f3645553fd61f003252c48f3f12b3abb9fc1f47bf83a43fef2022723f;
  0x14b641c793768a53f029621da1ef63fbff4da25fa5061663fde9013f97cb6923f;
  0x1f0e55cd77c5a10bf7ac00a19f5e6363f0e2243f63a26633fc656c7cdd58430bf;
  0x1cfb9d639db795b3ff1ae01133679923f8e1495d736cb123f917fb40dda4342bf;
  0x17482350b65b37fbfcc58bed9b6121e3f1c6e3f5d06a356bffcad151111f29cbf;
  0x18f1495d736cb123f937fb40dda4342bf7482350b65b37fbfacd59338b91b1e3f;
  0x1a1c27bd5dc6d3abf9b6895ab688a6c3fdccf40543e08f43e79a45cec48fe33bf;
  0x1b0d6a0314c3e7dbfac256ad1444a30bf5a56b64759994c3f5620ea4746e27ebf;
  0x1f1f7b08b5afd0fbf7e28e2b1f2163f3f53576f74c3fa7a3f7169ec7f5201dbbe;
  0x10e73c5430aacf83e3174a2d77cb417bfe6eb532cc74c9cbee7556dd7dbdab93e;
  0x168662de76cd7d8be474f11caead111bfd9807079c947303fe297a910e2484fbf;
  0x198dc145ee24cf03e9569ec9cbac80dbfbf47eb29e29d2c3f4e523d0e14161f3f;
  0x10166a4cd88663cbf9ab474ad95495b3f18481bffaf8a683e9e8a43ef0e6f86be;
  0x12ce98ef8cac4a53ebce7c4aa55b4293e242d6ce0237f47be7c2c50e6cecc663e;
  0x195d16ac6e6ebbe3e506f4c5d0040dcbe80570ce68f24fb3ee5eb532cc74c9cbe;
  0x1e6556dd7dbdab93e67662de76cd7d8befbd65ed77f07cbbeba152278aeb1e83e;
  0x1a521bf84dfb907bfe4eb532cc74c9cbee5556dd7dbdab93e66662de76cd7d8be;
  0x1ab91f551fee259be6bda2abf9ea6773e5a6830c346bc96be8259b270bdb9d2be;
  0x14350df1b941bf13e2537b842e26f10bfd4f388903ed6ad3e5c8d0a828742cbbe;
  0x133f1a7006d34ea3e6f8667bb144ce03ed062aeaa42c7fdbeb9e2fc5c759c1c3f;
  0x1e71fd69d0c479a3f0d93a2cc04d5953fe893ccee7130a33f7576ac682f9b783f;
  0x1a866ca0ff122843fe664547eb80a773fe398446927c78c3f0b567150ff6a883f;
  0x18986cd7a0d279e3f89486f4ac95873bf1d4be08a8fc371bf135cd00b371e89bf;
  0x1dba7807e6fa87c3f49987ce1241a9e3f255cba983c8aa2bf07e2b0c1774a9abf;
  0x1f06404895a8193bf0b77f11a39eb363f3dd1d134dd9473bffd0541c80e9b6bbf;
  0x1e0f42c8bfc2f523fd6425fbc911f8dbf39eb242805d884bfeefe1abde2f37ebf;
  0x17776ac682f9b783fa866ca0ff122843fe664547eb80a773f5f35bae642c67a3f;
  0x1b45c10375befa13ffc0549d84c27a23f7676ac682f9b783fa866ca0ff122843f;
  0x1e664547eb80a773fe81be4ede98c76bf9d78ce53690ba0bf941ea2f1b4a986bf;
  0x127326034688c733f18dac40171e3893f015b49c7d4fa7e3f1d9b855c222f773f;
  0x1ffd6a91950be9f3f106b5496fc018f3fb0594431f509fe3e0341fe3541b03fbf;
  0x1aefa359d36647bbf8edcefa755529abfd2bc13c153bd89bf72b6c37bfae1623f;
  0x1d90371313a63913f3256219b8de468bf926cc215a8dc55bf5236eaa9fcd0a63f;
  0x1a00184dd40aa54bfd874239bd1996dbf2b11e13619a9b7bfe51d2fcf2723a7bf;
  0x109d4ef2245f9803f10ef169fe05a95bfc4ec7b25d82b80bfe0a812b27d035e3f;
  0x16250696ac76b8ebfbde66c0fd55e82bf5cc5b954ba49563f35349917d52fb4bf;
  0x17fcf76c16e61a8bfd2655fb070947d3ffe1c2827e7d7b03f40474cc0af825ebf;
  0x10cb4ebcf0eda75bfd90371313a63913f3456219b8de468bf926cc215a8dc55bf;
  0x1e6bee5b02daa9b3f67a6d4144342893ff1fa391024ba63bfd40371313a63913f;
  0x14056219b8de468bf8c6cc215a8dc55bf9d912b089d5aaf3f58aa278353cd9cbf;
  0x174605ffd218b72bf2fb177b274f6ac3f33b22e17ccd6b4bf1fe6b16b52b86abf;
  0x133027db3803ca53fd426d367068293bf734b62c58e1e69bfa8e73efa20ca7bbf;
  0x1b0197b246fe4533ff60801566678413f88f46c8be6056d3fa0e161a57a61823f;
  0x10b68394420aa6dbf80f1afb45ae1643f960ede014ad1823ff3ed3e920cc951bf;
  0x1b0f4fa860d420c3fba8c9fb835e78b3f8e58f21f69837e3ff7547bc09f0c8e3f;
  0x17a02d4bfdd07a33ff67fd514a8b68ebf396d379fbf2a843fcb2a2eefec0e893f;
  0x1f7effb673d8c91bfda93d451e8a749bfd5a4bdc3ddb59abf11769a6fe6d289bf;
  0x1780268153c5741bff9aea902b30d92bf95cb1d184b7481bf882372017e72e23e;
  0x1361f2f493037623f63cee54966eb533f81f1afb45ae1643f960ede014ad1823f;
  0x1f5ed3e920cc951bf5430abc58fe7603fcfef85f07702873f7c19b6948435543f;
  0x181f1afb45ae1643f970ede014ad1823ff3ed3e920cc951bffccfe4bc947c583f;
  0x1d7690903d8115a3f39ad5ee8ac8466bf4ed03f98b5395abfcae72d84d87f98bf;
  0x19f8aefae924a83bfbbcb59d932c1823f8e5d806a98f7833f403915fa3f3f91bf;
  0x11dd5d18113227f3ff8d92841b70e9c3fbe686ff9b9846abf814999cb6d3068bf;
  0x14a8f3b5ebc91913f3df3ecbcda87693f860fe9e41d1656bf704ed02c5f55803f;
  0x1bf3e88a9e8a7753f9497d9af1f83553f0c862d1c63ac7ebf10f4aff353f2633f;
  0x1e2d7a0df269b60bfe58a058b761f883f3aa46a8eea86613fc8681017294054bf;
  0x147fea97d41f87b3fa29fc65de5f980bf5b493a9603c35dbfebfb0489c404853f;
  0x1196744ce65a078bfb0c378fb4f544abf9af6780a3498723f0f6172984fc965bf;
  0x1727f432bc4b84b3fb28ab4527fc373bfe6591aa847b4593f860fe9e41d1656bf;
  0x1704ed02c5f55803fbf3e88a9e8a7753fbbf2f475702750bfcaba0e82772b793f;
  0x1f82a6a622e41893f870fe9e41d1656bf714ed02c5f55803fbf3e88a9e8a7753f;
  0x14d56a58ee06e40bfcde7ae0257c0653f9520b322179d7abf7202a60b79b9463f;
  0x13d997a9e56d171bf1a4f15c0e24f83bf4e2dcbd71c8149bf0203e6c80ee1703f;
  0x1e39d036dfda684bfef4d85c1250c44bf311f920bb9a66d3fa6826e131da8633f;
  0x12d67f58fa6b7993f6243c5a09fc78bbf4883eee8697f5dbf1171b8a9039e92bf;
  0x17a07e6c785ed8cbf3cd00ffff67c67bfccc1ca2a2684a7bf0093b01d78f773bf;
  0x12a98384caaaf79bf4badce755e6cb43fe474643639c96ebfbd05969c50b7723f;
  0x1007ed8c10613893f2a3d878835df86bf3a15be3bf828983f66f1263153df913f;
  0x13e9af106e662993f79b81206f1ac913fc1f5ba2f2c87b43f29887cc14115af3f;
  0x1e061154ccd38703f8eaf6e43ec0fb1bfe70c301e9348723ff353d7a646e4643f;
  0x11171b8a9039e92bf7907e6c785ed8cbf3ad00ffff67c67bfc4d53ba2a8c49cbf;
  0x1cef930633b6d9ebf6b6ff2f055d986bf0c71b8a9039e92bf7807e6c785ed8cbf;
  0x13ed00ffff67c67bfc322d82bc6dcafbfc136a1222b74983fd2eb20ca47358c3f;
  0x1b74ae4e98c7facbfbad521a2d713bc3fa0a9f80445a4963f6d4874f6c886a9bf;
  0x132dd6501da37753fa051438990b69e3fe47648ecb9cd2abfbd6771aaea80a0bf;
  0x1d01e05841af4333f5e07f1c399d699bf7ccd2b07e8319fbfc62bd225d173643f;
  0x1738ae0145bd7aebfb089dbac5610853f7c1aa1d159eb733fe6f667be1352ab3f;
  0x1964c18479ef8773f1da3c7c9967472bface3356467dda13f32164bf88991a53f;
  0x1234e796a32486cbf0a8805e8d5f9aabf927ff0dcca5391bf65d2b12362d3723f;
  0x1607bddc72927423f1c7ce139d9a29abf843a2728bc83333fe03ade6ee2d650bf;
  0x1ff7df3096cb5a83fac7b469e3b1a42bfedd74863d653b23f5655b5d4a014803f;
  0x1c59d9c04cbc278bf748ae0145bd7aebfac89dbac5610853f7c1aa1d159eb733f;
  0x1b8c3fd5990e4a63f1752445bffc99b3f00fc813efaaa70bf748ae0145bd7aebf;
  0x1b089dbac5610853f7d1aa1d159eb733fb847413323adab3f03206b4c6687a6bf;
  0x194ad1d8173fc6fbf9b9ee0b52312a43fdf53a8fd1900a93f6dd464d4d5ef6fbf;
  0x191ad928fdfa0a43f39c3e222b4caa0bf7805040d39d767bf85d5ac771e64923f;
  0x1663e438d101f69bf3bafe782a3c157bfd3b01720fba37a3fbb3dd4e2fb14993f;
  0x1e5c4080949077dbfa0d21fa4016a63bf01eb92446bea87bffe589ae55e00503f;
  0x1f37a4fd1fde874bfce0b8abba38785bfa4bbad9cfacc853f2bf730159cef7fbf;
  0x1b671f1834d119ebfec50ce623666813f77b9c58dd3e0833f0c73e9f44b01973f;
  0x14fa2acbb9c3e93bfe564cab7a417593f67128b33013e92bf9143f246fa968fbf;
  0x1524f877998eb41bf93b8e001630e7a3f98aede36818f763fa9c568e220ea58bf;
  0x13f3b2ca928a769bfb814a1f6c6f9693fa0d21fa4016a63bf01eb92446bea87bf;
  0x1fc589ae55e00503f787a0b60dcdb693f8131f0fbc8a9973f7843d6b24f71693f;
  0x1a0d21fa4016a63bf01eb92446bea87bffc589ae55e00503f76fd4052eb61473f;
  0x19501fdf1878a70bf1e2de0a1104173bfb1047cffb030613f193d8092d24b953f;
  0x10a8ef9015071753f2bc5cb21d29f633f32821713dbc38bbf765bd2ddd42890bf;
  0x1400d000629b26dbfedcf3422734a92bf78e67b1dd779583f5e64a2f157b9553f;
  0x1a49a7fa13e3672bf8eb94f784010ab3f6351debcd7ed3ebf895ce847ff165a3f;
  0x12ca732f2e3a292bfd0ccde2276b845bff2776266c622623f95178c0885a19bbf;
  0x1bd45bc4d3e4944bfa66bf5aea701613faf13cf62ad4599bff8ca9f68c270373f;
  0x136ae8110b02053bfc3bcbe7124a5903f403c3bd152b94b3f3d49b202451067bf;
  0x1ba6765842ef7a13f6859e0257a2732bfbc3f44037b344e3f8de3e04a488787bf;
  0x1e3682ef361763ebfaccafcc05a6f593f04f1e272336093bf6351debcd7ed3ebf;
  0x1895ce847ff165a3f2da732f2e3a292bfec0b02efa4933f3f0403457caf165bbf;
  0x1615bb5753942913f6051debcd7ed3ebf895ce847ff165a3f2ca732f2e3a292bf;
  0x142e89b8f4774043f2844c994bd441bbfe43c5147ac776a3fc4c16b344158343f;
  0x19d2a742fce6751bf2e367b96779c863f4484720f392b0d3f4863b3cd757123bf;
  0x1c00f1cc83ddf723f14329875026b26bf6fb748dc11e9423fd843bd7a12047bbf;
  0x1e3f4d07c05d2913fd4ec6e99f754853faec38b6994b6a8bf1f224e6feb25b03f;
  0x108906a51d4322abffa75e11e0f50893f558cb22b125ea8bf1a1e95f98b0a643f;
  0x18a22a76c2d58953f5fa7b1d09d1c9bbf46d006c5f6638ebffe14b77e981b943f;
  0x116dac27fbfd2a53f5a62c35bd8ed71bf6878f4f701db60bf5a602b82f10368bf;
  0x1d66be18671e1a73f964af2d5ee7094bfe3f819358d565e3f10a63c560a70acbf;
  0x1f8e7abd256c27a3f6d06cc7db7d1b1bfb7bf130584b179bfdef53555ad51963f;
  0x120224e6feb25b03f088f6a51d4322abffc75e11e0f50893f787fdc6975c1a8bf;
  0x1b419b8af2ee1a8bfd0a46fdca44590bf20224e6feb25b03f08906a51d4322abf;
  0x1fa75e11e0f50893fa8326ef2c70facbfd82475a959a6a83f7665c63e7403763f;
  0x16a364148df4da5bf8c68b66a628db1bf18c85e222a5989bf8546f37f27e2a5bf;
  0x12957765d1ccfa73f6ab0d71ad9d78c3ff24603a406028dbffff1faa40cd7943f;
  0x10936189405d67a3fe6b5170364ae753fb6097d2f1a0aa23fb3298557ae0c82bf;
  0x1fc56c820e1dc553fec207fdf4e25893f482e2069650134bf8e562729a2b96c3f;
  0x172239714585b913f36b9eb3c915783bf26d93cd93dd366bf6d11cc7bc3fd92bf;
  0x1123ba5787a00733fba7819b9c45e71bf0fe79d1a4e9789bf508369514852903f;
  0x1a46cae5dcba269bf1c5c77d9669762bf0e07f371a20f903f9d58ec2bf8694bbf;
  0x16465fec27fe143bf1c45bd03ce2c713f9676fd738c2d5dbf1724a46962a181bf;
  0x1b65b6a6a9ea5733ffd56c820e1dc553fec207fdf4e25893f502e2069650134bf;
  0x1346e23ef9765593f360049e668669c3fc7329ed7d1af7d3ffd56c820e1dc553f;
  0x1ea207fdf4e25893f582e2069650134bfafbda7b1a994453f588cd09da45b7ebf;
  0x11fc0f45ca0c17fbff2a5b8ec10b3453fe47a5a098e3f8d3f10df956c6b4e723f;
  0x19b5988daed3e55bf688f6e310ae38d3f106a42c777438f3f0286839c7ff14fbf;
  0x1431eb47db75e82bf605f7f4ec73a2d3ffc6eb5779a97a0bf4a68853f6f3ba9bf;
  0x1fd844b2dc75f643ff8524f770d14a53f92f2baa8c4fc71bf7adfb544f76070bf;
  0x1bf12ee67ff27723fa251b9e0abb08dbfddf234604add43bf3339de73f33e8b3f;
  0x1a604404c7db7943f500ca41164ba50bf3b48303d6961b33f918b1139c19a903f;
  0x1a61a8e246bdf7cbf82c32cdbb967b0bf46448f629fdf9f3fe0a38e9cc7bd7a3f;
  0x16748d367673eadbfa90fa30fa5689c3fba756ff69ed5773f40d238efb1b583bf;
  0x14a1dc322811da03f026ce3706790553ff8524f770d14a53f92f2baa8c4fc71bf;
  0x17adfb544f76070bf80c64af464617dbf8ef9325ed064ab3fa88bc6fcf33c563f;
  0x1f8524f770d14a53f8ef2baa8c4fc71bf7adfb544f76070bfee5e01764774a5bf;
  0x1fa4b264baab6a8bfdffc96951cee6b3f52fb4877dfa2ae3f089276f84d10933f;
  0x1a914d6f0e58576bf8ef85ee461c3933f214154bb00c4963f546f14c48bba59bf;
  0x15a6b65221207a23f102c8c0d9fc46ebfd078d8fa37046cbf4285ee70db6b463f;
  0x1054b0e1640d797bf06182eb9213f91bf661af36f11c42cbf5c22dfd4990060bf;
  0x1c09109f7a1450c3f3c4d453ee34530bfc8bf5d09e5df52bff2f16c678bae453f;
  0x106bdeaf1ba3126bf8754a27f7199773ff3a5048f6b12713fdf811fc118603abf;
  0x114def777dc2d76bf2e469a3fd9d94ebf7c26ab7194584e3fa828798e8f417a3f;
  0x1b6cbaeb115c654bfbc96c345e7166ebf04222e66bc089abf185f84032099743f;
  0x1e0f07676ed4c70bfd0cc37610fe892bf6f7b15a5ecb7853f641af36f11c42cbf;
  0x15c22dfd4990060bfa09109f7a1450c3fe401ad3d6d927fbf34de8d418d16a4bf;
  0x18e56f5a08903933f631af36f11c42cbf5b22dfd4990060bfa09109f7a1450c3f;
  0x1a10ddabdbe90583f2a0ef571606990bf5ecd0632a27391bf5000eb310970473f;
  0x10cdb4f1d3f3a8e3f0e0c0784decb723f387126bc2286183ffe9d5cf0496250bf;
  0x11f067bb2186c51bfedeaa496cbb35c3f28b716c618ef8f3f38c9fda3a3353cbf;
  0x1547c1d133d109b3f16840f1bf51ca33f403c47ff7fb9973f95a2e56e30a6a5bf;
  0x118bed32b8c4d78bf3bcf59578268713f32699d4872807fbf50ea493a3d5055bf;
  0x14539782c7d3a833ff657c7115d3185bf6c2172c158807ebff0dd40034de47fbf;
  0x12e91ddd81c31b2bfb0f7b523cfc55b3fea54927c3d4780bf9ae0360d1ff8b03f;
  0x176517f358b0ea2bf4ac3fbfdb27295bf3533dfbc7d8daf3fa0a7cfb5ca0d5cbf;
  0x1f78cd87ec6cd8ebf83f9f338da818f3fe06ef1bd060972bf658b3364641e91bf;
  0x196a2e56e30a6a5bf18bed32b8c4d78bf3ccf59578268713f6c76171b364d8b3f;
  0x1759bc98f7781a5bffa4ba9564dd39bbf96a2e56e30a6a5bf18bed32b8c4d78bf;
  0x13ccf59578268713f8aef4bd96e59a43f4d72ed8b675bb23fca1d91b646e6953f;
  0x1eb89c3df6b57afbf80dee5459a66a8bfeaac8dffc7286dbf66997229f98792bf;
  0x17adf829ab057a2bf627b7038a3de89bf9984a880ea6ca2bf8437fe13e67c67bf;
  0x1013c70fa3fb76d3f4622f55a003381bf3db5d4d1a9a1a2bff5d7f0358c488c3f;
  0x1d6bfc04e0aa53bbf4aaeb5b8e38666bfa8b39e1be8fe233f70890c9a6d25743f;
  0x1bf0088cdf1ee933fc2d3b8f7a0c882bf2be9565225ab40bfe4f0c18b7e0e62bf;
  0x1bebc549323694b3f6ea6c9df73e559bfe915bf118795873f1c49acfa29658b3f;
  0x19c58c60f8e1c7dbff7faff78ed1999bfc2f4d9bb187d8f3f4ff9a55286bc37bf;
  0x1ca2679da737754bf7a7522beb4ac493fd2a662ae0cf3703ffd30041d36c5903f;
  0x1664f8dee319b7fbfd7bfc04e0aa53bbf4aaeb5b8e38666bfa4b39e1be8fe233f;
  0x1f33c643592d651bf42156c6dcf109abf0479f040bc4185bfd5bfc04e0aa53bbf;
  0x14aaeb5b8e38666bfa4b39e1be8fe233f8dc214d5fb9c22bf0c8888358bd9913f;
  0x1469472441a2b863fc5626f4119322f3fe8e274a3703a673ffd47ed35a9de453f;
  0x1442e3663b21f26bf506fa1386537953fc159eca278598a3f0eb20fa4883313bf;
  0x1f675157a124b3fbf30742453edc6fb3e3c754e39c550a7bf66ed4631187a923f;
  0x1aa88b7c8a61c713f968fb7ed2aaf8abf72bc8c41a2f85b3f0633b9d6c76b533f;
  0x17e8d79f6c2dba13fe01f5d696141a4bf8e68c7106ad26abfe3b76cfd90b8a7bf;
  0x190c6579f59cc923fc2c16190d468713f764c65836929afbf58cc6381878eb13f;
  0x1d1a22d595965773fe0ea7b1180c8b43fe69e97fc8295a93f85380d5749897dbf;
  0x1f18c836aa2da903f05be469f4bbf843fa6e92615caf357bf183d262528787c3f;
  0x12994742e2f2580bfe1b3d10e1c6145bf968fb7ed2aaf8abf6ebc8c41a2f85b3f;
  0x10633b9d6c76b533f2fd9c8df8b63a9bfd0eb4c5fb7da76bfe59c4ca1e455723f;
  0x1988fb7ed2aaf8abf70bc8c41a2f85b3f0833b9d6c76b533f14ee319b6a79903f;
  0x15c202375a96a843f958bdf7bd16857bf95c865a2e284a43f7f9b467b704d823f;
  0x188f0c3165b886dbfab7f1b4c0eabb43ffcfdd8503a9da93fec273b3c6d5e7dbf;
  0x12f3f5719f112a0bf1ecf689f67d9703f2d7cab15c765673fcebd0b50859dab3f;
  0x1147d62723bc9923f254e26cd6f6b92bf95952d40538c8b3f22a0de2f2515513f;
  0x17b092ddaa4eb55bfac1ebba97060a4bf013f3205d193943fe6adea7b3b7d893f;
  0x18813b6923dfba73f7488dfcd898a90bf5a59cc02f9d574bfa999632295f8af3f;
  0x115af9b633881b4bf428da153eb8b93bf56857f30b7f6b2bfd5422f8018119abf;
  0x18058531074b880bf0cf53851b07b90bf2c99f7235d3082bfd25d2b6cdf3a463f;
  0x1f571c4699ab586bfd1cd930b3d6581bff1c233b8aa23813f95952d40538c8b3f;
  0x126a0de2f2515513f7a092ddaa4eb55bf17fb737140f2a93f36503f457dc79f3f;
  0x1235594e0932d783f97952d40538c8b3f24a0de2f2515513f7c092ddaa4eb55bf;
  0x18fc487a3305490bf3a181af0df0e9cbfd3a2f614003e83bff837a7bb14a4a4bf;
  0x139d423a40c1c88bf899e48c9b010683f94e4e972fe9fb4bfd2da9476761cb2bf;
  0x1968b9d09845477bf0847a9dd8a1ca03f7def8eef6cc96dbf15c551f0549d67bf;
  0x1a68e8af87a64413f8cf5063d38bd94bf9aafb9efcf65843f2425bb604fdc22bf;
  0x1af9db58436e9663f50d67528a9c13f3f258b3269501d40bfcca6cc39243b8c3f;
  0x1cace88606b5d6bbfbef98345197203bf00ca9509fa2f573fe4e89a3240ce46bf;
  0x12c3aeeb0369e53bf19962d5cbc55903f93065fcd52fb893f4fa892e086d5553f;
  0x1d3f1ecae7602a1bfb2acd010e510713ffe79d75d749120bf0f99cffc85d0693f;
  0x19dfa31be6ce639bf931510f7b4df45bfd24d2fd71029933f891aeb36959272bf;
  0x12425bb604fdc22bfb09db58436e9663f4ed67528a9c13f3f0f444c7cacc0363f;
  0x1862e64e1f71f6a3f6a5946fbdf738abf2425bb604fdc22bfaf9db58436e9663f;
  0x154d67528a9c13f3fc9616958d5de4fbf6059b301375d823fb2764efe18c48e3f;
  0x11360d0788ec2253f95e3fddf63dd63bfb4dcbba87ab058bf022c708ea07a47bf;
  0x1ab91576ec90e7b3f270a46d255aa863f20f7ec18dc69073f206809f011714cbf;
  0x12ed703a713b623bf771016660698593f279b30f20e51a13f0b67f91d78c48e3f;
  0x12feca6bfb209ec3e7e6313effcf4093f227cd05f63e4d7be22160b1acb3dfc3e;
  0x12be34ac1fecc0d3f3ea0dcadec9902bffdfb487916132abfaea80d6752a471bf;
  0x1a389038368585fbf0808dbaa09b10d3fc0d5d4e6f99c323f745d402c444bf23e;
  0x1abe83aa0826f1abf9ae6349db89a33bf785b16788629163f5ba015a576d9733f;
  0x16a3833d4ba708d3f032f873b08a470bf5f007eff7dd0843fa3046418b6f6953f;
  0x1da54fdfe406b8bbf2feca6bfb209ec3e7e6313effcf4093f227cd05f63e4d7be;
  0x1a6ac3a0cf5ae923fd7101e101e3da43f1ccbb572940698bf2eeca6bfb209ec3e;
  0x17e6313effcf4093f227cd05f63e4d7be2603f00aed244e3f5527610e5a19a03f;
  0x168e4cab1ec538f3ffc604bc607da5abf434ba1ce72df84bf6540e0127b5b5abf;
  0x1c41c6f423b73c43e3cf96d78ecd7153f63ace3d8c940053f3ae8df580faa64bf;
  0x16006dd03722183bf32998c35dc9b513ff00e2abd328764bf4f6040ae4547ac3f;
  0x1d9821ac00c6158bfb07a2cd49b3896bf2fc0d21189d4723f9e0a5a6cf0d5583f;
  0x17550c6d89da596bf5fd2fabb68c19a3f41fc31dad0424d3f0021c6756122383f;
  0x1036a85b37f9f80bf901e16ce6aa92c3f1a512323c72dbbbfa8ad1c6448008ebf;
  0x17b000b503a80813ff9484e835fcfb43fd463cb594cd5abbf163bd5662fa272bf;
  0x1681d066c3a04923fa0307feacc1888bf368c3b46d62150bf8fede43259ada03f;
  0x160c44aaee2b3a3bf9b30bf2e378c55bfb07a2cd49b3896bf2fc0d21189d4723f;
  0x19e0a5a6cf0d5583fe88b49a5f30aa4bf64b0f128b2c2a7bf4f1028e12403723f;
  0x1b07a2cd49b3896bf30c0d21189d4723f9d0a5a6cf0d5583f55f1f8789dd2b73f;
  0x137cfd7c4b3e9a13f7cbeabbbffb780bf1757d40a9b619ebfeaf82936e08c68bf;
  0x1602f2109314a633f4ba615aed82cb0bf6de6cc99365398bf1fea096114b4763f;
  0x1e4042fe6b0a381bf6d1ae7db34e55d3f0950fe9f03b7433f5418e35f86103b3f;
  0x158c0f640dc9cb1bf25e3d73a130f98bf1cfc953cd35a963fcdb50b4e0e7d7ebf;
  0x1dbd78b293b5760bf086249e9781f973f9be520acf076a4bf3bc2b3dc1e57643f;
  0x19347e220265521bf1a85d9a5a98b863f221d47a12d95633fa2aeb1dc8978bb3f;
  0x1c029a91bc1005abf9e13c05f59c295bfe08428be1920b5bfbb5ff93c7c7fb63f;
  0x1624f43c2438a333f8bd68f2c75d996bf1cdccfd11e9877bfba31f998e44a763f;
  0x1512de8def989a5bf509bdc2f19805bbf1964254009b3933f1cfc953cd35a963f;
  0x1ceb50b4e0e7d7ebfdbd78b293b5760bf1a3a678cef0b953f50cad5ab49396e3f;
  0x1de79079cdd5fa03f1cfc953cd35a963fcfb50b4e0e7d7ebfdbd78b293b5760bf;
  0x197fe5da829cfb7bf72e6d2c92d4db3bf4fce36fa02b096bf676c476ab6e39f3f;
  0x163422bd403fa8f3fb27cb35227ef483fc501bc08a55bb03f0994be51ac79913f;
  0x171f15166d00c91bffc114ee0cab6863f94b96087dc2b813f5146ab909b0059bf]%N.
Definition file_158 : list N := [0x1934e554d5059010076007b276465736372273a205b282773616d706c65272c20;
  0x1273c693427292c202827737472756374757265272c20273c693427292c202827;
  0x161746f6d272c20273c693427295d2c2027666f727472616e5f6f72646572273a;
  0x12046616c73652c20277368617065273a202836382c292c207d2020202020200a;
  0x10000000000000000010000000000000000000000020000000000000000000000;
  0x10400000001000000000000000100000001000000000000000200000001000000;
  0x10000000003000000010000000000000005000000020000000000000001000000;
  0x10200000000000000020000000200000000000000030000000200000000000000;
  0x10600000003000000000000000100000003000000000000000200000003000000;
  0x10000000003000000030000000000000007000000040000000000000002000000;
  0x10400000000000000030000000400000000000000080000000500000000000000;
  0x10100000005000000000000000200000005000000000000000300000005000000;
  0x10000000009000000060000000100000001000000060000000100000002000000;
  0x10600000001000000040000000700000001000000010000000700000001000000;
  0x10200000007000000010000000300000007000000010000000500000008000000;
  0x10100000001000000080000000100000002000000080000000100000003000000;
  0x10800000001000000060000000900000001000000010000000900000001000000;
  0x1020000000900000001000000030000000900000001000000070000000a000000;
  0x101000000010000000a00000001000000020000000a0000000100000003000000;
  0x10a00000001000000080000000b00000001000000010000000b00000001000000;
  0x1020000000b00000001000000030000000b00000001000000090000000c000000;
  0x102000000010000000c00000002000000020000000c0000000200000003000000;
  0x10c00000002000000040000000d00000002000000010000000d00000002000000;
  0x1020000000d00000002000000030000000d00000002000000050000000e000000;
  0x102000000010000000e00000002000000020000000e0000000200000003000000;
  0x10e00000002000000060000000f00000002000000010000000f00000002000000;
  0x1020000000f00000002000000030000000f000000020000000700000010000000;
  0x10200000002000000100000000200000003000000100000000200000008000000;
  0x11100000002000000010000001100000002000000020000001100000002000000;
  0x103000000110000000200000009000000]%N.
Definition file_159 : list N := [0x1934e554d5059010076007b276465736372273a205b28276772616469656e745f;
  0x1646972656374696f6e272c20273c693427295d2c2027666f727472616e5f6f72;
  0x1646572273a2046616c73652c20277368617065273a2028332c292c207d202020;
  0x1202020202020202020202020202020202020202020202020202020202020200a;
  0x1000000000100000002000000]%N.
Definition file_160 : list N := [0x1934e554d5059010076007b276465736372273a205b282773706865726963616c;
  0x15f6861726d6f6e6963735f6d272c20273c693427295d2c2027666f727472616e;
  0x15f6f72646572273a2046616c73652c20277368617065273a2028352c292c207d;
  0x1202020202020202020202020202020202020202020202020202020202020200a;
  0x1feffffffffffffff000000000100000002000000]%N.
Definition file_161 : list N := [0x1934e554d5059010076007b276465736372273a20273c6638272c2027666f7274;
  0x172616e5f6f72646572273a2046616c73652c20277368617065273a202831382c;
  0x120352c2033292c207d2020202020202020202020202020202020202020202020;
  0x1202020202020202020202020202020202020202020202020202020202020200a;
  0x1e5de8a512def913fda9cbb532ac66a3fb489cbf5e6b956bfb17843c0d44926bf;
  0x1f320eca61da300bf9dd487f9613eec3e8690956c2034a5bfa16f009da5a77fbf;
  0x18fbd355b7ade6a3fa4a37ae6e07a56bf6c9a8f2fbac730bffa196506897c1c3f;
  0x12fa6dd6384cfb13f7911057ce6968a3feae0f375c89176bfd1e947adf77640bf;
  0x1b61ee91ceb2679bfc29e22e26d7362bf5d9d4daf9a8e633fad38b9753fe09d3f;
  0x11141782390ea853fbda1b431bf914ebfb71fb30e6e5987bff0749690e42071bf;
  0x1c0b38dfeda862dbf03e669f2928d66bf743f7168598b50bf67a6e3e4d89d65bf;
  0x1d2c77f2dd782a0bf419a279d683988bfc95b96198bcc3ebff56065c78ed975bf;
  0x1e875bbe8590b5fbf07b62c83eeeb65bff2bd4325951a9fbf201231d3a21886bf;
  0x1bc3759a164dc4ebfc1837953cde485bf6662f1c2531b6fbf193d46774fca2c3f;
  0x13fa33466be6c643f6b52e59b05054d3fbfec8425084b67bf78dd32995f86a0bf;
  0x164398e73887a87bf0cfee458b3f626bfe90b2cdedf10453f72661c52b37c6abf;
  0x1ab98280a5844c93e3f0681e5c92de7be492018ddd0240d3f842e58b8e2ad1abf;
  0x1b36843b27379383f48e7d4b1d4c55ebf043c6df8e44fccbee5efb96eeaf8e93e;
  0x1ccb9760bfd5310bf6cb3f0d618f3f43e1a9df79de13713bf9cfce633fc29383f;
  0x10000000000000000000000000000000000000000000000000000000000000000;
  0x10000000000000000000000000000000000000000000000000000000000000000;
  0x10000000000000000000000000000000000000000000000000000000000000000;
  0x10000000000000000000000000000000000000000000000001173969ffcf142bf;
  0x1f69ac345eef7913f1bfeaf408cba8a3f7841cad91934f3be436312dea236423f;
  0x1c79aa003d3173b3f54399553412f413f4b17d21f704c90bfce18f96aa33e88bf;
  0x1ad60442c1ac80abf5aa9f05c9d66593ffdc43d236de4523ff1de45347d0647bf;
  0x17d2c3c9a94d6953faa843efe153e903f84459bf8d042813f040955d634b0743f;
  0x190c05236f25948bfd8d22b0abea7763f5597377353276b3fa4f75e801ef63fbf;
  0x1194bd436c1b56abfadddfcccb80160bf945c9c6a42d7323f3ee2a19ede0fa93f;
  0x1150df841ca099e3f770ef3d9aaad71bf3ff1f24bd4d9a23fe2520bf30898963f;
  0x1d2408e2626986abf2dfce9def23846bf4c277f8f95df7ebf0a25bdfa86b965bf;
  0x115c0994073306a3fd4258f2a3431a23fee136e92489a893ffd7c721c4ef935bf;
  0x1f76b863c2a876ebfa15368254f7b55bf9fb0b6729eec3bbfdea6e025be6573bf;
  0x11bc049f2804c5bbfc86ebc15b27864bf720dd9f8d4709cbf174f216f500384bf;
  0x1c44c0a8de4182fbf89a6e09771db78bf6f75f81ca9fd66bf828564df69844bbf;
  0x1b488c6faddfe95bf57313f70165884bf846dd958a98342bf7c1eedc12e998dbf;
  0x17a01d8dc44607bbfbd6b86f01fe6143fa0dbe9c98eb4603f7d60312aede64e3f;
  0x111f6f82dbf4954bf5cfa99158f37a0bf022487fdb2ff8dbf0e43cca7c9d827bf;
  0x1bed43039d3de453f668727aa12cb6bbfc20ab7f4ecb9f5be6be71388f4ec133f;
  0x13fcfef485f5239bf2115962b35601bbf1a23c6b45e1b393f7a36731c00e85fbf;
  0x11167ae9daad8f83e6ff6f9277fc916bf214426154cf53c3fe2d1bfe13cadf93e;
  0x13cb36f41738c17bf0789d50f0ced3d3f00000000000000000000000000000000;
  0x10000000000000000000000000000000000000000000000000000000000000000;
  0x10000000000000000000000000000000000000000000000000000000000000000;
  0x10000000000000000000000000000000000000000000000000000000000000000;
  0x10000000000000000bdc6044d170b51bf92fb7ad0cc70853fd979062d25438f3f;
  0x1a71757243067253fb845e7b2dbec5abfb503381431a163bf085d88f30c4c4d3f;
  0x1e2b5d7168f6d82bf344b57e59bde8abfdd471c8b5b6b3d3f27b3f04b408172bf;
  0x14a1a8c6952fb7abfb7a4d4f0ae5354bff82522744592893fb5b326cf83a4923f;
  0x120698100186f623f6c12eb72a322423f0147e25a976228bfd6e01052d60b4f3f;
  0x17601497a128b2e3fe8b49c96d88814bf91d48c09bf6396bf9746ed7be20676bf;
  0x1fe2d564f2a9e5d3fd69de02c8b48a93fc6cdb325aedf883f6538c2480fb970bf;
  0x15ac5f1356c03ae3f67277f08f1868d3f320b091af5d973bf43939579519842bf;
  0x149c35886404478bf53cce128499560bf54d5bc459e066e3f8fbe4d4d8c97a33f;
  0x1e0c9c421fbc68a3f7f3a320e8717203fe6f0eae60300553ff3ed79eba5b33c3f;
  0x174d1223a1c923bbf7a52f4b471fd71bff306811b799658bfa8cb7b46eafb63bf;
  0x1ba130f084f149abf1c4643dc68d281bf0cc1fd7dde9a293fa549d5c1c306633f;
  0x12f1a8bdcc4964b3f1272db44aa1f61bf87f0dd7fca7299bfc01dfda3547382bf;
  0x13eb267873cf354bf86f3b62095228fbfb978ddaccd9276bffa21e551f92112bf;
  0x16ec1ca52adf24abfe7771081a78933bf1b214d17562768bfe0b45808b0f2a1bf;
  0x1ddec78bc72068abfcb6839d2db4321bf737a56c9c8b33f3fb18963b1abea62bf;
  0x1aa10ba90dd65f6be4bf306a94990143f5311fdba608a38bfe4c3861fca6713bf;
  0x131f57830f3d0313f049c1584044355bf2760b377becef63eebac23c293f014bf;
  0x13e3a970c4afd383f0db909f48a07c43eb6eed8c09e63e2bef1e2229d0df2053f;
  0x10000000000000000000000000000000000000000000000000000000000000000;
  0x10000000000000000000000000000000000000000000000000000000000000000;
  0x10000000000000000000000000000000000000000000000000000000000000000;
  0x1000000000000000000000000000000000000000000000000687c0626362f583f;
  0x1a079d496f2ef993f1ab9d653378d853f10e62fc932952dbf9c2311a919ba6fbf;
  0x180f57a62c15c5abf1addf1c1f37753bfce5ea3ca2fe194bf851a6c09625981bf;
  0x1192487f1658a42bfabd286386ae283bf3d59ac9cb08570bfb91a66aeb37d593f;
  0x1cd7e9682ae569b3f49a67ef34ab7863f]%N.
Definition file_162 : list N := [0x1934e554d5059010076007b276465736372273a205b2827737472756374757265;
  0x1272c20273c693427292c20282763656e746572272c20273c693427295d2c2027;
  0x1666f727472616e5f6f72646572273a2046616c73652c20277368617065273a20;
  0x12831382c292c207d20202020202020202020202020202020202020202020200a;
  0x10000000004000000000000000500000000000000060000000000000007000000;
  0x10000000008000000000000000900000001000000040000000100000005000000;
  0x10100000006000000010000000700000001000000080000000100000009000000;
  0x10200000004000000020000000500000002000000060000000200000007000000;
  0x102000000080000000200000009000000]%N.
Definition file_163 : list N := [0x1934e554d5059010076007b276465736372273a205b282773706865726963616c;
  0x15f6861726d6f6e6963735f6d272c20273c693427295d2c2027666f727472616e;
  0x15f6f72646572273a2046616c73652c20277368617065273a2028352c292c207d;
  0x1202020202020202020202020202020202020202020202020202020202020200a;
  0x1feffffffffffffff000000000100000002000000]%N.
Definition file_164 : list N := [0x1934e554d5059010076007b276465736372273a205b28276e272c20273c693427;
  0x1295d2c2027666f727472616e5f6f72646572273a2046616c73652c2027736861;
  0x17065273a2028332c292c207d2020202020202020202020202020202020202020;
  0x1202020202020202020202020202020202020202020202020202020202020200a;
  0x1000000000100000002000000]%N.
Definition file_165 : list N := [0x1934e554d5059010076007b276465736372273a20273c6638272c2027666f7274;
  0x172616e5f6f72646572273a2046616c73652c20277368617065273a202833302c;
  0x120332c20352c2033292c207d2020202020202020202020202020202020202020;
  0x1202020202020202020202020202020202020202020202020202020202020200a;
  0x1e46593dfa4a1a03f964cd1efbc8392bfbd5fd623ba5c50bf9628664b2e1440bf;
  0x15e615880cab8223f39ad84acb2b9f83e6f1f0e910a1fa2bf6968379fcdd8a93f;
  0x1d0ddce4bc61a4ebff6c64882ced864bf0adc5b311835573f29a3f9f66b82143f;
  0x1e132d0132233ac3f39d7597f90ebb5bfeb92e870f4f85e3f5cb9275670d8c1bf;
  0x134b172a293b49dbfb9a151b45c03873f8229728a922d563fe48f53236a75323f;
  0x135981e69ad991cbf5ad12cfb80f771bf0cecefe668a0793f5844827217d91dbf;
  0x19728664b2e1440bf5d615880cab8223f3aad84acb2b9f83ea70e71dfb1fba53f;
  0x1fa6075972fbb6fbfab0c0082468265bf9728664b2e1440bf5c615880cab8223f;
  0x13aad84acb2b9f83e7e5d84c1be7b92bfc6f69ed2ca9c6bbf645edebba66c573f;
  0x1f7cab1807be2663f888fe00dfa4701bf57c2eb2c4b4328bf45cd67596ba4c2bf;
  0x19091ac478ed99bbf91d760db32a0873fb7db81c797ef5fbf10f886a8bd97423f;
  0x1b01d0cb00c8e183fe46593dfa4a1a0bf964cd1efbc83923fbd5fd623ba5c503f;
  0x19628664b2e14403f5e615880cab822bf39ad84acb2b9f8be6f1f0e910a1fa23f;
  0x16968379fcdd8a9bfd0ddce4bc61a4e3ff6c64882ced8643f0adc5b31183557bf;
  0x129a3f9f66b8214bfe132d0132233acbf39d7597f90ebb53feb92e870f4f85ebf;
  0x15cb9275670d8c13f34b172a293b49d3fb9a151b45c0387bf8229728a922d56bf;
  0x1e48f53236a7532bf35981e69ad991c3f5ad12cfb80f7713f0cecefe668a079bf;
  0x15844827217d91d3f9728664b2e14403f5d615880cab822bf3aad84acb2b9f8be;
  0x1a70e71dfb1fba5bffa6075972fbb6f3fab0c00824682653f9728664b2e14403f;
  0x15c615880cab822bf3aad84acb2b9f8be7e5d84c1be7b923fc6f69ed2ca9c6b3f;
  0x1645edebba66c57bff7cab1807be266bf888fe00dfa47013f57c2eb2c4b43283f;
  0x145cd67596ba4c23f9091ac478ed99b3f91d760db32a087bfb7db81c797ef5f3f;
  0x110f886a8bd9742bfb01d0cb00c8e18bf0577c19cdf4064bf24ed72f53432a1bf;
  0x19ee9e6a5f54b8abf042d732f08f05bbf00384889febd73bf7df191a08337473f;
  0x12a18c009bac7403f004c3febb019babe25b58fb073ba4fbf85604c971c2952bf;
  0x112c9c180a3d68ebfaa126bb0559477bfc732c600e0a0613f36577a61e398813f;
  0x16048280497283b3fd686d771f5f76cbfdcf335db47a97ebf197ea18ea6c1663f;
  0x1319f34566534913f426258c6bf35a23fce467a7fcc078bbfde647e858b3a76bf;
  0x100eae1669d49f13e18c7eeeee603853f032d732f08f05bbf00384889febd73bf;
  0x17cf191a08337473f2dd5a048d28d91bfc7a38872cc6196bf3c61b6db837e953f;
  0x1012d732f08f05bbfff374889febd73bf75f191a08337473fca639b2e8996753f;
  0x1bd37d63e42f687bfbdb92aec5c7190bf52b8d9679ef872bf7430fa1b86819bbf;
  0x1caf80180d38575bf9d0f0b09eb4b40bf2dd4285dae16523f7c371ff232d3583f;
  0x13865a91ff75682bf86d488a668eb99bfee7a894e437b6e3f0577c19cdf40643f;
  0x124ed72f53432a13f9ee9e6a5f54b8a3f042d732f08f05b3f00384889febd733f;
  0x17df191a0833747bf2a18c009bac740bf004c3febb019ba3e25b58fb073ba4f3f;
  0x185604c971c29523f12c9c180a3d68e3faa126bb05594773fc732c600e0a061bf;
  0x136577a61e39881bf6048280497283bbfd686d771f5f76c3fdcf335db47a97e3f;
  0x1197ea18ea6c166bf319f3456653491bf426258c6bf35a2bfce467a7fcc078b3f;
  0x1de647e858b3a763f00eae1669d49f1be18c7eeeee60385bf032d732f08f05b3f;
  0x100384889febd733f7cf191a0833747bf2dd5a048d28d913fc7a38872cc61963f;
  0x13c61b6db837e95bf012d732f08f05b3fff374889febd733f75f191a0833747bf;
  0x1ca639b2e899675bfbd37d63e42f6873fbdb92aec5c71903f52b8d9679ef8723f;
  0x17430fa1b86819b3fcaf80180d385753f9d0f0b09eb4b403f2dd4285dae1652bf;
  0x17c371ff232d358bf3865a91ff756823f86d488a668eb993fee7a894e437b6ebf;
  0x1f6453ccb30f666bfe53d56df1485a1bf57491741d7ac89bf02680e081df0593f;
  0x1375310b26492713fcd9cb819826445bfdf4bef9439f23a3fc4d51c23f05423bf;
  0x14b20baafb7d14abf38289410d076553fb6cc34139060903f1567ae5a2800783f;
  0x10c2cf96742b45f3f1e1d64c0dd6d7e3fe4df50896f5c353fd0be02430aad69bf;
  0x13f14400976d679bf7028cc93a4cb633f4b02e286734692bfad2e92e8ee63a2bf;
  0x1b0cb42aced2d8c3fc1af0475798474bff8a7aa227b705d3fc58c3bf7b86b843f;
  0x102680e081df0593f375310b26492713fcb9cb819826445bf9fa8d0b299d491bf;
  0x1a84cb56d3c0e95bfd15b9597c75f953f05680e081df0593f385310b26492713f;
  0x1cd9cb819826445bf464989eec04d783f0689e374289885bf481a920cdc8690bf;
  0x1a3a64c4949ce733f07ff5ca876219c3f4c267e23e619763f544c9bff34eb3fbf;
  0x176ed53bf495c4c3f5848a94682b4553fce44eb87e09d833f08952cf236949a3f;
  0x12798eb7ed92d70bff6453ccb30f6663fe53d56df1485a13f57491741d7ac893f;
  0x102680e081df059bf375310b2649271bfcd9cb8198264453fdf4bef9439f23abf;
  0x1c4d51c23f054233f4b20baafb7d14a3f38289410d07655bfb6cc3413906090bf;
  0x11567ae5a280078bf0c2cf96742b45fbf1e1d64c0dd6d7ebfe4df50896f5c35bf;
  0x1d0be02430aad693f3f14400976d6793f7028cc93a4cb63bf4b02e2867346923f;
  0x1ad2e92e8ee63a23fb0cb42aced2d8cbfc1af04757984743ff8a7aa227b705dbf;
  0x1c58c3bf7b86b84bf02680e081df059bf375310b2649271bfcb9cb8198264453f;
  0x19fa8d0b299d4913fa84cb56d3c0e953fd15b9597c75f95bf05680e081df059bf;
  0x1385310b2649271bfcd9cb8198264453f464989eec04d78bf0689e3742898853f;
  0x1481a920cdc86903fa3a64c4949ce73bf07ff5ca876219cbf4c267e23e61976bf;
  0x1544c9bff34eb3f3f76ed53bf495c4cbf5848a94682b455bfce44eb87e09d83bf;
  0x108952cf236949abf2798eb7ed92d703f38cb0ead58b25c3fe3ac810ebf317abf;
  0x121c2280dba10a43f907e88f7f36900bf7f3f37798cf81d3f2b8dec4ce8cc46bf;
  0x1a9ebfbea4098503f5a20dd15704b6ebf220280efa839973f453993daaeb0013f;
  0x177bce65dc82520bf5cf364fa1bbd483fc603a51f1e0321bf4dfc91484ff93e3f;
  0x12cd0e23866096abfad1596bfba5959bfbd891df38523773f4cf649b9e7c1a1bf;
  0x1e9970df7a8e4fb3e706f4790a97519bf213435efdd89433f314df95ba99e4dbf;
  0x1138e125b4c096b3f794c81fb2bba94bf907e88f7f36900bf7f3f37798cf81d3f;
  0x12a8dec4ce8cc46bf8607a7db23b3303f14bc124b68884ebf2351f962d11f763f;
  0x1907e88f7f36900bf813f37798cf81d3f2b8dec4ce8cc46bf93f7616a751312bf;
  0x199b2f61b3295303f2ae9113bf6d054bfa3f01357cab0f4be50584fdba6e5123f;
  0x1929be1b9f35b3cbf5cb199552641143f0cb7a13dd19432bf88d386503253573f;
  0x1786a63f8d2f2cd3eec2518ae9c57ebbee1fcbe2cf8cc143f38cb0ead58b25cbf;
  0x1e3ac810ebf317a3f21c2280dba10a4bf907e88f7f369003f7f3f37798cf81dbf;
  0x12b8dec4ce8cc463fa9ebfbea409850bf5a20dd15704b6e3f220280efa83997bf;
  0x1453993daaeb001bf77bce65dc825203f5cf364fa1bbd48bfc603a51f1e03213f;
  0x14dfc91484ff93ebf2cd0e23866096a3fad1596bfba59593fbd891df3852377bf;
  0x14cf649b9e7c1a13fe9970df7a8e4fbbe706f4790a975193f213435efdd8943bf;
  0x1314df95ba99e4d3f138e125b4c096bbf794c81fb2bba943f907e88f7f369003f;
  0x17f3f37798cf81dbf2a8dec4ce8cc463f8607a7db23b330bf14bc124b68884e3f;
  0x12351f962d11f76bf907e88f7f369003f813f37798cf81dbf2b8dec4ce8cc463f;
  0x193f7616a7513123f99b2f61b329530bf2ae9113bf6d0543fa3f01357cab0f43e;
  0x150584fdba6e512bf929be1b9f35b3c3f5cb19955264114bf0cb7a13dd194323f;
  0x188d38650325357bf786a63f8d2f2cdbeec2518ae9c57eb3ee1fcbe2cf8cc14bf;
  0x15ea9c8f71eb271bf121f01c358eda0bfba4b69d880267b3f1bcaef0d47d920bf;
  0x1593f16ee594955bfd02caf49e2a2f73ec30b07766bce703fa23025e08efa983f;
  0x1cd00ff510bd684bf6dd6dee4ed0339bf8ee3c33ec3ed67bf7703c623bb30433f;
  0x12611a28f513277bf7a0ea583ef529cbf8d0d08190fc9913fddfce14173e861bf;
  0x158ee134dc2a77e3f34bfe9b33729913f2a1745d4f12612bf529bc3febc122f3f;
  0x1c1cfcbeb1a65413f91839414041a583fc5a26dc027e9813f30bbcbc772e16dbf;
  0x11bcaef0d47d920bf583f16ee594955bfd02caf49e2a2f73ef8d19fe938ad58bf;
  0x106223e6b7b729abfdc5f053e2df776bf1acaef0d47d920bf593f16ee594955bf;
  0x1c02caf49e2a2f73ecb050300ec7131bf6a5d44994c35803f78e18f3c103d783f;
  0x1d800b735458e173f26a3ca5c834d603fbc59dda5341c433fb70c3bc8455448bf;
  0x1c7b45024b49a963f83d00bd8dbe6903fa290cd6f317a24bf421db00eefde59bf;
  0x1703ba37f03bafc3e5ea9c8f71eb2713f121f01c358eda03fba4b69d880267bbf;
  0x11bcaef0d47d9203f593f16ee5949553fd02caf49e2a2f7bec30b07766bce70bf;
  0x1a23025e08efa98bfcd00ff510bd6843f6dd6dee4ed03393f8ee3c33ec3ed673f;
  0x17703c623bb3043bf2611a28f5132773f7a0ea583ef529c3f8d0d08190fc991bf;
  0x1ddfce14173e8613f58ee134dc2a77ebf34bfe9b3372991bf2a1745d4f126123f;
  0x1529bc3febc122fbfc1cfcbeb1a6541bf91839414041a58bfc5a26dc027e981bf;
  0x130bbcbc772e16d3f1bcaef0d47d9203f583f16ee5949553fd02caf49e2a2f7be;
  0x1f8d19fe938ad583f06223e6b7b729a3fdc5f053e2df7763f1acaef0d47d9203f;
  0x1593f16ee5949553fc02caf49e2a2f7becb050300ec71313f6a5d44994c3580bf;
  0x178e18f3c103d78bfd800b735458e17bf26a3ca5c834d60bfbc59dda5341c43bf;
  0x1b70c3bc84554483fc7b45024b49a96bf83d00bd8dbe690bfa290cd6f317a243f;
  0x1421db00eefde593f703ba37f03bafcbe378ab445c62d8d3f9f0a9b5990d97cbf;
  0x1f1b2945cc67259bf7cb0eebae6628e3fa889bdfc1adb55bfb6ed3672a0a058bf;
  0x1898519da3365a13f87b154d893059b3f4a36ca6d819967bf8e5756f5d72eb53f;
  0x1c1dc4885b5f1a4bf29f636818a7982bf76f7f6eaff5c993f15a9ddf92940abbf;
  0x18d26f7c8f2846cbf40e1ba74f749b2bf51453d7861d2a6bf80c4937400aa793f;
  0x1ff7472402101a8bf2575fe7b2ff49dbf825a910b99d7703ff9a713791b736f3f;
  0x125834636456d683fa1936543545535bf7cb0eebae6628e3fa889bdfc1adb55bf;
  0x1b6ed3672a0a058bfd47d96ed60fd933ff5a9b24ffe69703ff28f55de5a9a5ebf;
  0x17cb0eebae6628e3fa489bdfc1adb55bfb6ed3672a0a058bf3c7da9eafd89563f;
  0x12c09eaf7101c78bfcb1ba4a9fa5430bfd93bb2fcd9a5afbf961b9e70c6f0a0bf;
  0x15edb3cc3ffa1763fd0eea168f5ee883f346e3e31bfabaabf89ac84b2231162bf;
  0x108c9c74ab497b03fb888261d77de77bf6ba3ff0657e57abf378ab445c62d8dbf;
  0x19f0a9b5990d97c3ff1b2945cc672593f7cb0eebae6628ebfa889bdfc1adb553f;
  0x1b6ed3672a0a0583f898519da3365a1bf87b154d893059bbf4a36ca6d8199673f;
  0x18e5756f5d72eb5bfc1dc4885b5f1a43f29f636818a79823f76f7f6eaff5c99bf;
  0x115a9ddf92940ab3f8d26f7c8f2846c3f40e1ba74f749b23f51453d7861d2a63f;
  0x180c4937400aa79bfff7472402101a83f2575fe7b2ff49d3f825a910b99d770bf;
  0x1f9a713791b736fbf25834636456d68bfa19365435455353f7cb0eebae6628ebf;
  0x1a889bdfc1adb553fb6ed3672a0a0583fd47d96ed60fd93bff5a9b24ffe6970bf;
  0x1f28f55de5a9a5e3f7cb0eebae6628ebfa489bdfc1adb553fb6ed3672a0a0583f;
  0x13c7da9eafd8956bf2c09eaf7101c783fcb1ba4a9fa54303fd93bb2fcd9a5af3f;
  0x1961b9e70c6f0a03f5edb3cc3ffa176bfd0eea168f5ee88bf346e3e31bfabaa3f;
  0x189ac84b22311623f08c9c74ab497b0bfb888261d77de773f6ba3ff0657e57a3f;
  0x189791b65ec3663bf88894844d9df9fbf723864fc261788bfc65eae8ab72667bf;
  0x1f92492b48bfb7ebf6a0ab626870c533f4ad7d9becf4a123f480e1ebfd7445cbf;
  0x1504d4c30588450bfcca9f344052558bf48b9954cc00694bf76877d1c85457ebf;
  0x1cc1dcb1fee4f653fb0a47a6c2d0b853f4843d87ffc83443fef8d0c29f6d070bf;
  0x12e6ba6e68c717fbfd24d4ef3b7bb6b3fbf90845c6ad1933f52346ef33687a23f;
  0x18c89a733865790bf865b4f1eda2741bfd2d0413f31838a3f1355dac93efb7e3f;
  0x1c65eae8ab72667bffa2492b48bfb7ebf6a0ab626870c533fe83dae8dc7e98bbf;
  0x151a211a2afd187bff7aaf6726dc6923fc75eae8ab72667bffb2492b48bfb7ebf;
  0x16b0ab626870c533f7c7993e19d40853f14251db700f7673f7173097aac6791bf;
  0x1b95b2019f1f26cbfc9d0194d61259cbfcf3e570201de7fbf243788830ea956bf;
  0x19803521b728d39bf67007484dc8e623f5dcbd3b0ba5385bff810b919978a9cbf;
  0x15e4f10d9498c713f89791b65ec36633f88894844d9df9f3f723864fc2617883f;
  0x1c65eae8ab726673ff92492b48bfb7e3f6a0ab626870c53bf4ad7d9becf4a12bf;
  0x1480e1ebfd7445c3f504d4c305884503fcca9f3440525583f48b9954cc006943f;
  0x176877d1c85457e3fcc1dcb1fee4f65bfb0a47a6c2d0b85bf4843d87ffc8344bf;
  0x1ef8d0c29f6d0703f2e6ba6e68c717f3fd24d4ef3b7bb6bbfbf90845c6ad193bf;
  0x152346ef33687a2bf8c89a7338657903f865b4f1eda27413fd2d0413f31838abf;
  0x11355dac93efb7ebfc65eae8ab726673ffa2492b48bfb7e3f6a0ab626870c53bf;
  0x1e83dae8dc7e98b3f51a211a2afd1873ff7aaf6726dc692bfc75eae8ab726673f;
  0x1fb2492b48bfb7e3f6b0ab626870c53bf7c7993e19d4085bf14251db700f767bf;
  0x17173097aac67913fb95b2019f1f26c3fc9d0194d61259c3fcf3e570201de7f3f;
  0x1243788830ea9563f9803521b728d393f67007484dc8e62bf5dcbd3b0ba53853f;
  0x1f810b919978a9c3f5e4f10d9498c71bf337cdc9dfbc34ebf8ef2320f6ffb9ebf;
  0x11f6fc347a2fb8dbf50f3dfb4feb8503f389502f11977703f58016bbd3f783cbf;
  0x1eabd4e9c724c443fb44465c0541f503f56a708bb64d351bf0c19479d0fad343f;
  0x1696179ac53d2843f32617f926a26743f9de3d73f50915a3fb907c0af363e823f;
  0x1f680fc0aca2b483f12f0a9e6b4ed67bf5f1b91ce846582bf4c4f336d86e1653f;
  0x18ed68abb7f2c85bf783c81ae5847a0bf1d4e9d9fa95c833fdebb3bd911ba7abf;
  0x19a83680a623a85bfdb52d4de8978873f50f3dfb4feb8503f389502f11977703f;
  0x158016bbd3f783cbf42094f404cf48dbf7293d38371ca9fbf847fb1e372c6953f;
  0x150f3dfb4feb8503f379502f11977703f5a016bbd3f783cbfba27c228928a633f;
  0x172627ada4d9391bfc46c74fdb77090bfd39c974a2bd0673fe64397058546963f;
  0x11f669f99b1d5723f02b64ab7c0ae2dbf1848344b4eb25a3f741bbb5beaf8583f;
  0x1560f7538e8d1753fd2949f99ed7b953f0c3bbbace89262bf337cdc9dfbc34e3f;
  0x18ef2320f6ffb9e3f1f6fc347a2fb8d3f50f3dfb4feb850bf389502f1197770bf;
  0x158016bbd3f783c3feabd4e9c724c44bfb44465c0541f50bf56a708bb64d3513f;
  0x10c19479d0fad34bf696179ac53d284bf32617f926a2674bf9de3d73f50915abf;
  0x1b907c0af363e82bff680fc0aca2b48bf12f0a9e6b4ed673f5f1b91ce8465823f;
  0x14c4f336d86e165bf8ed68abb7f2c853f783c81ae5847a03f1d4e9d9fa95c83bf;
  0x1debb3bd911ba7a3f9a83680a623a853fdb52d4de897887bf50f3dfb4feb850bf;
  0x1389502f1197770bf58016bbd3f783c3f42094f404cf48d3f7293d38371ca9f3f;
  0x1847fb1e372c695bf50f3dfb4feb850bf379502f1197770bf5a016bbd3f783c3f;
  0x1ba27c228928a63bf72627ada4d93913fc46c74fdb770903fd39c974a2bd067bf;
  0x1e6439705854696bf1f669f99b1d572bf02b64ab7c0ae2d3f1848344b4eb25abf;
  0x1741bbb5beaf858bf560f7538e8d175bfd2949f99ed7b95bf0c3bbbace892623f;
  0x1c8fc3f3c22bf5c3fd9a0dd9f19357abf6beac44e3882a43f14af226a51432b3f;
  0x16691288a54dc48bfe62f073d5d4f733f06e1a9ab1666503fb6cfb3ff41e66dbf;
  0x1a5b0ac63df6c973fd82b0f7396f32dbfe0993eea4e4e4b3f333178ac475e75bf;
  0x195f6f3b2fc7225bf2637e7f4b480433f42d087185d8b70bf7673a9a5e1d158bf;
  0x113e0f82033a0763fa320f65da5bfa1bfb4f06b71de9c26bff995195a229d443f;
  0x1031a64589b2b70bf796a15b3d3ad4cbf1f5e96fd12256a3fed1581afd07b94bf;
  0x114af226a51432b3f6691288a54dc48bfe52f073d5d4f733fb213de1cd6cb323f;
  0x1873d5376262a51bfca3417c0a171793f15af226a51432b3f6591288a54dc48bf;
  0x1e62f073d5d4f733fe502d4a1164109bf8947b55be939273ffd1fb83fb7504abf;
  0x1bf21cf9dad10213fe9ee9c4441233fbf6d8d368284d1673ff270e10288e10c3f;
  0x19aa477cfcb8f2abf04e9c8b02a184e3f87ec8c06e05afdbe950f9440b2c41a3f;
  0x1b65c5050b1ca44bfc8fc3f3c22bf5cbfd9a0dd9f19357a3f6beac44e3882a4bf;
  0x114af226a51432bbf6691288a54dc483fe62f073d5d4f73bf06e1a9ab166650bf;
  0x1b6cfb3ff41e66d3fa5b0ac63df6c97bfd82b0f7396f32d3fe0993eea4e4e4bbf;
  0x1333178ac475e753f95f6f3b2fc72253f2637e7f4b48043bf42d087185d8b703f;
  0x17673a9a5e1d1583f13e0f82033a076bfa320f65da5bfa13fb4f06b71de9c263f;
  0x1f995195a229d44bf031a64589b2b703f796a15b3d3ad4c3f1f5e96fd12256abf;
  0x1ed1581afd07b943f14af226a51432bbf6691288a54dc483fe52f073d5d4f73bf;
  0x1b213de1cd6cb32bf873d5376262a513fca3417c0a17179bf15af226a51432bbf;
  0x16591288a54dc483fe62f073d5d4f73bfe502d4a11641093f8947b55be93927bf;
  0x1fd1fb83fb7504a3fbf21cf9dad1021bfe9ee9c4441233f3f6d8d368284d167bf;
  0x1f270e10288e10cbf9aa477cfcb8f2a3f04e9c8b02a184ebf87ec8c06e05afd3e;
  0x1950f9440b2c41abfb65c5050b1ca443fcebb890c9e5a473f7977ba34df4a9cbf;
  0x158805beb3de35c3fdaf0af00468a27bfe7609aef738e743f328744e44a7e473f;
  0x1abdf75d5459233bf7c85dd05f314953f2f833fac751379bf0c658f2d002834bf;
  0x11da4d0f8256b883fccd31bbaa7ee48bf1a788f5d0468273ff4f0d6a6ddd29abf;
  0x1dab92405427c883f3d4e99fd5a3949bfe02613268a0a343f9f265f67921e903f;
  0x1b6abb9922cad1f3f00f53209f42a09bf45ea13952a3e64bf1c76821f1d7a1cbf;
  0x11d3396b0bdac7e3fcd330a88433e62bfdaf0af00468a27bfe7609aef738e743f;
  0x1328744e44a7e473f743e67669f664e3f9a6f622127a692bfc3a55022e00581bf;
  0x1daf0af00468a27bfe7609aef738e743f368744e44a7e473fc52101f0b86c3abf;
  0x1a5dadcb9f01c6d3fb09ec292fe77793fe4b0d03b4934383f8c9fa37789877abf;
  0x14f940ecfb3e36ebf4cd6a1f52f2952bf061bd6b32d02843fe36f8346fe80913f;
  0x1facf3d524b132cbf12d7d9ec5084783fa4ea194d01054c3fcebb890c9e5a47bf;
  0x17977ba34df4a9c3f58805beb3de35cbfdaf0af00468a273fe7609aef738e74bf;
  0x1328744e44a7e47bfabdf75d54592333f7c85dd05f31495bf2f833fac7513793f;
  0x10c658f2d0028343f1da4d0f8256b88bfccd31bbaa7ee483f1a788f5d046827bf;
  0x1f4f0d6a6ddd29a3fdab92405427c88bf3d4e99fd5a39493fe02613268a0a34bf;
  0x19f265f67921e90bfb6abb9922cad1fbf00f53209f42a093f45ea13952a3e643f;
  0x11c76821f1d7a1c3f1d3396b0bdac7ebfcd330a88433e623fdaf0af00468a273f;
  0x1e7609aef738e74bf328744e44a7e47bf743e67669f664ebf9a6f622127a6923f;
  0x1c3a55022e005813fdaf0af00468a273fe7609aef738e74bf368744e44a7e47bf;
  0x1c52101f0b86c3a3fa5dadcb9f01c6dbfb09ec292fe7779bfe4b0d03b493438bf;
  0x18c9fa37789877a3f4f940ecfb3e36e3f4cd6a1f52f29523f061bd6b32d0284bf;
  0x1e36f8346fe8091bffacf3d524b132c3f12d7d9ec508478bfa4ea194d01054cbf;
  0x13eda363379b46e3f21ca7556750362bf731cc36a095023bfbb10bd0fa232653f;
  0x1ea3453edd93346bf72d362d31f1223bf1e1f825e9d74893f2f0c73d14317a13f;
  0x1c58c7b8e555b65bf5066ca31930eb53f6c4bcc29eab4a8bfac791e50117d6abf;
  0x1d6ddb064bffda13fd4e96cdb8999b2bf1ac6a6a3e8c6553f82b16f1b97f5bfbf;
  0x138e61903bc809fbf507b2df71625853fad3aca29aae9aabf65637fda42878abf;
  0x1d87bb30054ce713f2c8d9513f4412f3fb986570786fc443fb12ba26282390abf;
  0x1bb10bd0fa232653fec3453edd93346bf72d362d31f1223bf2305cebbe666763f;
  0x148d0e337bb222cbf76c209ab514f38bfba10bd0fa232653ff03453edd93346bf;
  0x170d362d31f1223bf843e03422f6e55bfa79ca7b4aaab4cbfb54d160291f3213f;
  0x1ceb1400449fdb5bfea40fc2d3d1e81bf6c725000535d7a3f4a840af6d373b1bf;
  0x1465ff1594359a7bfdac02a690e3d7d3fd3c15723b441b13f95722c73191392bf;
  0x1aeb8c2a8dc0c6fbf3eda363379b46ebf21ca75567503623f731cc36a0950233f;
  0x1bb10bd0fa23265bfea3453edd933463f72d362d31f12233f1e1f825e9d7489bf;
  0x12f0c73d14317a1bfc58c7b8e555b653f5066ca31930eb5bf6c4bcc29eab4a83f;
  0x1ac791e50117d6a3fd6ddb064bffda1bfd4e96cdb8999b23f1ac6a6a3e8c655bf;
  0x182b16f1b97f5bf3f38e61903bc809f3f507b2df7162585bfad3aca29aae9aa3f;
  0x165637fda42878a3fd87bb30054ce71bf2c8d9513f4412fbfb986570786fc44bf;
  0x1b12ba26282390a3fbb10bd0fa23265bfec3453edd933463f72d362d31f12233f;
  0x12305cebbe66676bf48d0e337bb222c3f76c209ab514f383fba10bd0fa23265bf;
  0x1f03453edd933463f70d362d31f12233f843e03422f6e553fa79ca7b4aaab4c3f;
  0x1b54d160291f321bfceb1400449fdb53fea40fc2d3d1e813f6c725000535d7abf;
  0x14a840af6d373b13f465ff1594359a73fdac02a690e3d7dbfd3c15723b441b1bf;
  0x195722c731913923faeb8c2a8dc0c6f3fec6cc944918965bfaac5d6a3974c9fbf;
  0x1e402f6aa9b6f86bf55021cd2a4fb64bf3974f8a4870b7bbf4251149f2322513f;
  0x1c43512434dc332bf42333548b4f562bfb42f0379054a46bfec113560f3ee5fbf;
  0x17acbcdb51f3497bfecb0420004a280bf618db55975cf603f6430105fe46c803f;
  0x16a4a9ba191c9413fcd821c18797569bf320625d359a175bfa561d9163bb4653f;
  0x1f73190f2f88d943ffe47fb3ea876a13f18420473e68591bfeff90e42066f643f;
  0x17909ef42eaa5943f883fdf092146783f56021cd2a4fb64bf3a74f8a4870b7bbf;
  0x14351149f2322513f57b9d803ba3888bf3a9492dda2707bbf0ac85b95f542913f;
  0x154021cd2a4fb64bf3874f8a4870b7bbf4351149f2322513fe21f234e6faf8b3f;
  0x1232a599414a6863fb9d7e96ef7f791bf6a34e97a9aad60bf1c73d7fcfe399abf;
  0x1ecf5ce24af6283bf44783981eb6b59bfc7dad4d6fdcb54bf11389de2d77f603f;
  0x116839328e88c86bfba2de219b8109dbf4ad3c5e5c869723fec6cc9449189653f;
  0x1aac5d6a3974c9f3fe402f6aa9b6f863f55021cd2a4fb643f3974f8a4870b7b3f;
  0x14251149f232251bfc43512434dc3323f42333548b4f5623fb42f0379054a463f;
  0x1ec113560f3ee5f3f7acbcdb51f34973fecb0420004a2803f618db55975cf60bf;
  0x16430105fe46c80bf6a4a9ba191c941bfcd821c187975693f320625d359a1753f;
  0x1a561d9163bb465bff73190f2f88d94bffe47fb3ea876a1bf18420473e685913f;
  0x1eff90e42066f64bf7909ef42eaa594bf883fdf09214678bf56021cd2a4fb643f;
  0x13a74f8a4870b7b3f4351149f232251bf57b9d803ba38883f3a9492dda2707b3f;
  0x10ac85b95f54291bf54021cd2a4fb643f3874f8a4870b7b3f4351149f232251bf;
  0x1e21f234e6faf8bbf232a599414a686bfb9d7e96ef7f7913f6a34e97a9aad603f;
  0x11c73d7fcfe399a3fecf5ce24af62833f44783981eb6b593fc7dad4d6fdcb543f;
  0x111389de2d77f60bf16839328e88c863fba2de219b8109d3f4ad3c5e5c86972bf;
  0x16c1ecb83357468bff7e3e5885f67a2bf43f94292e2d48abf6d59ef50617f41bf;
  0x142191e0a3d5958bf3acf643d00012d3fe48fdd46849b31bfe3e63ddb40cc2cbf;
  0x1f2dee19dda3f393f362db1ce4d51513f4522c084ec108a3f37ea69e55900733f;
  0x1e87f79f6d5f84bbff038ca6540f46abf6060a0fc17a61fbfb12d5d200710573f;
  0x1b7067ce4bc99683fa6af8d8cb95451bf9368f695cfd88ebf2235626eb473a0bf;
  0x1f0cd5ffa3f2e873ff37766a1b0a080bf034d73b803327bbf143c180c2ad8873f;
  0x16d59ef50617f41bf43191e0a3d5958bf3ecf643d00012d3f6e817632253394bf;
  0x188bdf262cdea9bbf2f054930a30d973f6c59ef50617f41bf42191e0a3d5958bf;
  0x136cf643d00012d3fdd3fe37ebdf1653f3a2150b595aa94bf80f59ff56fa38fbf;
  0x1e4068bce3c66733fe894c0da8911993fc35a05e769f26f3f46d7136bc43c173f;
  0x1b6260e8855e245bf9ecb507d59c040bf1d47e6a77c81803fb53d928feff7963f;
  0x1a8b1550f265c6bbf6c1ecb833574683ff7e3e5885f67a23f43f94292e2d48a3f;
  0x16d59ef50617f413f42191e0a3d59583f3acf643d00012dbfe48fdd46849b313f;
  0x1e3e63ddb40cc2c3ff2dee19dda3f39bf362db1ce4d5151bf4522c084ec108abf;
  0x137ea69e5590073bfe87f79f6d5f84b3ff038ca6540f46a3f6060a0fc17a61f3f;
  0x1b12d5d20071057bfb7067ce4bc9968bfa6af8d8cb954513f9368f695cfd88e3f;
  0x12235626eb473a03ff0cd5ffa3f2e87bff37766a1b0a0803f034d73b803327b3f;
  0x1143c180c2ad887bf6d59ef50617f413f43191e0a3d59583f3ecf643d00012dbf;
  0x16e8176322533943f88bdf262cdea9b3f2f054930a30d97bf6c59ef50617f413f;
  0x142191e0a3d59583f36cf643d00012dbfdd3fe37ebdf165bf3a2150b595aa943f;
  0x180f59ff56fa38f3fe4068bce3c6673bfe894c0da891199bfc35a05e769f26fbf;
  0x146d7136bc43c17bfb6260e8855e2453f9ecb507d59c0403f1d47e6a77c8180bf;
  0x1b53d928feff796bfa8b1550f265c6b3fe4fe30a54f88593f60d95942026977bf;
  0x1e902ba085d39a03f771f0ce29024313f3a511a8fef6f4fbfdd438f5c2daf753f;
  0x1a960c571b9a64c3fbe5495fc0a456abfdde0c093bd35923f47fe96ba50dd30bf;
  0x13bc4d82deaec4e3fe8d50275b26e75bfee7ee4d532bdfb3ea847b5b3ee8019bf;
  0x1a0da78df0434393fc4d049ff950a59bf5048474bb9f5763fe01537aa67d49fbf;
  0x1a044d1cf363e30bf9ec627f425c94d3fe526fb7072a574bf2025a16bf9224cbf;
  0x1283034863ecc693f0d24190301e291bf761f0ce29024313f3a511a8fef6f4fbf;
  0x1dd438f5c2daf753f0c4dcded6add153f599abbcdbb1034bfc02f00ea083b593f;
  0x1771f0ce29024313f3a511a8fef6f4fbfdd438f5c2daf753fdcfe07593cbee9be;
  0x14014c3ab7abd073fa8fd1ee15c4c1abf19d1edfa8aa2243f9ca0f69416ec42bf;
  0x17339a501c2de693fe85a1737c736ea3ebc87868ca42c08bf884b3d4281c71a3f;
  0x1db34b7583de3d3bebbd90f9b433cf23e48e0f580002819bfe4fe30a54f8859bf;
  0x160d959420269773fe902ba085d39a0bf771f0ce2902431bf3a511a8fef6f4f3f;
  0x1dd438f5c2daf75bfa960c571b9a64cbfbe5495fc0a456a3fdde0c093bd3592bf;
  0x147fe96ba50dd303f3bc4d82deaec4ebfe8d50275b26e753fee7ee4d532bdfbbe;
  0x1a847b5b3ee80193fa0da78df043439bfc4d049ff950a593f5048474bb9f576bf;
  0x1e01537aa67d49f3fa044d1cf363e303f9ec627f425c94dbfe526fb7072a5743f;
  0x12025a16bf9224c3f283034863ecc69bf0d24190301e2913f761f0ce2902431bf;
  0x13a511a8fef6f4f3fdd438f5c2daf75bf0c4dcded6add15bf599abbcdbb10343f;
  0x1c02f00ea083b59bf771f0ce2902431bf3a511a8fef6f4f3fdd438f5c2daf75bf;
  0x1dcfe07593cbee93e4014c3ab7abd07bfa8fd1ee15c4c1a3f19d1edfa8aa224bf;
  0x19ca0f69416ec423f7339a501c2de69bfe85a1737c736eabebc87868ca42c083f;
  0x1884b3d4281c71abfdb34b7583de3d33ebbd90f9b433cf2be48e0f5800028193f;
  0x188e6bfe3ea058bbfe2842367c850a1bfdfa9ebcf7e34873fafd26023587a613f;
  0x173d8a91c9b557d3fe49973826bab4dbf1871d2806dc1843f4ca9eebc7250933f;
  0x1ecbefc01cbcb89bfc73c052f84b7743f3a66ccb2a68c8a3f18b29cc330ca71bf;
  0x1f0217779ba398abf24cf8b4ce72191bfcea45e64d146943f7d72b4f9d7036ebf;
  0x10e4367d144948c3f1bb9c6b3d24d903fa845688e815b423f3715faafb17a61bf;
  0x11bc874547ef163bfa17f5053f78e703f0abc755233d17e3ffcc2df03669474bf;
  0x1afd26023587a613f72d8a91c9b557d3fe49973826bab4dbf1c4be67638237bbf;
  0x186bd77daa1bfa0bfb2d7eccdd9e967bfb0d26023587a613f73d8a91c9b557d3f;
  0x1e69973826bab4dbffa8344bed7573c3f6f9e1e4ca56b883fb2dd7441c8b8763f;
  0x168daad341fd260bf06b4128cd49b87bfc514bc3f3b485bbf6e7b13fb7fc3513f;
  0x12ca20332449c9e3f6b53344f2d7b8c3f113438fd136c623f88ebca1e53eb7e3f;
  0x12e388965c6454fbf88e6bfe3ea058b3fe2842367c850a13fdfa9ebcf7e3487bf;
  0x1afd26023587a61bf73d8a91c9b557dbfe49973826bab4d3f1871d2806dc184bf;
  0x14ca9eebc725093bfecbefc01cbcb893fc73c052f84b774bf3a66ccb2a68c8abf;
  0x118b29cc330ca713ff0217779ba398a3f24cf8b4ce721913fcea45e64d14694bf;
  0x17d72b4f9d7036e3f0e4367d144948cbf1bb9c6b3d24d90bfa845688e815b42bf;
  0x13715faafb17a613f1bc874547ef1633fa17f5053f78e70bf0abc755233d17ebf;
  0x1fcc2df036694743fafd26023587a61bf72d8a91c9b557dbfe49973826bab4d3f;
  0x11c4be67638237b3f86bd77daa1bfa03fb2d7eccdd9e9673fb0d26023587a61bf;
  0x173d8a91c9b557dbfe69973826bab4d3ffa8344bed7573cbf6f9e1e4ca56b88bf;
  0x1b2dd7441c8b876bf68daad341fd2603f06b4128cd49b873fc514bc3f3b485b3f;
  0x16e7b13fb7fc351bf2ca20332449c9ebf6b53344f2d7b8cbf113438fd136c62bf;
  0x188ebca1e53eb7ebf2e388965c6454f3f]%N.
Definition file_166 : list N := [0x1934e554d5059010076007b276465736372273a205b282773616d706c65272c20;
  0x1273c693427292c202827737472756374757265272c20273c693427292c202827;
  0x161746f6d272c20273c693427295d2c2027666f727472616e5f6f72646572273a;
  0x12046616c73652c20277368617065273a202833302c292c207d2020202020200a;
  0x10000000000000000000000000000000000000000040000000100000000000000;
  0x10000000001000000000000000500000002000000000000000000000002000000;
  0x10000000006000000030000000000000000000000030000000000000007000000;
  0x10500000000000000000000000500000000000000090000000600000001000000;
  0x10000000006000000010000000400000007000000010000000000000007000000;
  0x10100000005000000080000000100000000000000080000000100000006000000;
  0x10900000001000000000000000900000001000000070000000b00000001000000;
  0x1000000000b00000001000000090000000c00000002000000000000000c000000;
  0x102000000040000000d00000002000000000000000d0000000200000005000000;
  0x10e00000002000000000000000e00000002000000060000000f00000002000000;
  0x1000000000f000000020000000700000011000000020000000000000011000000;
  0x10200000009000000]%N.
Definition file_167 : list N := [0x1934e554d5059010076007b276465736372273a205b28276772616469656e745f;
  0x1646972656374696f6e272c20273c693427295d2c2027666f727472616e5f6f72;
  0x1646572273a2046616c73652c20277368617065273a2028332c292c207d202020;
  0x1202020202020202020202020202020202020202020202020202020202020200a;
  0x1000000000100000002000000]%N.
Definition file_168 : list N := [0x1934e554d5059010076007b276465736372273a205b282773706865726963616c;
  0x15f6861726d6f6e6963735f6d272c20273c693427295d2c2027666f727472616e;
  0x15f6f72646572273a2046616c73652c20277368617065273a2028352c292c207d;
  0x1202020202020202020202020202020202020202020202020202020202020200a;
  0x1feffffffffffffff000000000100000002000000]%N.
Definition file_169 : list N := [0x1934e554d5059010076007b276465736372273a20273c6638272c2027666f7274;
  0x172616e5f6f72646572273a2046616c73652c20277368617065273a2028392c20;
  0x1352c2033292c207d202020202020202020202020202020202020202020202020;
  0x1202020202020202020202020202020202020202020202020202020202020200a;
  0x1e662d91bcd55a23fb15670e9e2fca3bfb841910c495c6cbff55e34d8ba5950bf;
  0x1808ed02f561d6b3f93b740ead20f4f3f866bbfe27820ac3fa83f4f738b709fbf;
  0x1607bed6d9f42a2bfee1780c3e66870bf2fa6a400bd6845bff829c27233f11fbf;
  0x18400715d7dc491bf578ee40e97ff953fcfc82e1629fb833f8c6209a85b3ba8bf;
  0x1f681af792201ad3f7e7ff2f51e859c3fda6418cba023733f4aec66bc686f743f;
  0x174a70ecdc059483f8b5012b1e9d2a4bfcc8fcdd01bdcb3bfa0298e9470c9a0bf;
  0x18e93036c39b15cbf001764bef23b173f60090ab1057538bf7aace17c9c2ea4bf;
  0x13c03e6303cd3873fe845a96121229e3f56fce5156031aabf86dc36cb5b8a8cbf;
  0x10852cd1154af9f3fe5a5bc5cf717763fc600ea745fe2703ffa3120b496c2443f;
  0x1b32602d1ac07b3bf4213e93f3267a8bf2afe2abc3bff8dbf7fe1f84f589c6dbf;
  0x1d69b6268fdd752bf4e1dadd919e2453f679696a260dea03fee009970368e9abf;
  0x1f0dc516cf8e980bf5d07330cddfe9f3f10ca054e0f4ba5bf88f1761e7fd864bf;
  0x1cfd987eca1818fbff6bf3f92475e9bbf46e9bb09cabe82bfd4c88af588d2b13f;
  0x1ac7ac557f3e488bf4b6fe7ce57d4a2bf1166ceb734a27b3fc1ec6431f74e9b3f;
  0x1f03549ddaf99803fefbe4a33cb8a95bfc3f9aa551fc2943f86aacf5d5d4f8a3f;
  0x1644263c4af3aa2bf0a869a8aeb7fb03f98019d8f42a49e3fb4b733a9c89f9bbf;
  0x1f2e954e0cf899bbf972ee9c0fc9e72bf7201a97686489cbf286f1c56a85ab3bf;
  0x13ecf16696bcc9ebf98b1f6d9731a8f3f43368fa2e26d8e3fe4dfe238d6dd763f;
  0x1f596908ea9d797bf80981beddeed923f3a0895f8c2fe983f98d4ef78f17da6bf;
  0x12ee36c544d1888bf86bc9537772ea13f5533715be85d9bbfeb7a9d95c6609abf;
  0x12046e8dfc386373f690aee79afb3b1bfce149d7bccf4a5bfb41f70522dbc8fbf;
  0x1ffe9ab28ca6b913fbb281abef2f6733fc7e374a05592733fc1f9d8056553933f;
  0x1c1b9c428203ca3bf0a8ab1516c6070bf351d8bd9ded2963f3dd6da13306ca3bf;
  0x184b98e1d83f571bf5307699af36f93bf9bfcf33dbd1398bf14afd82406de7abf;
  0x14364b69a1d5bb43f6af31ddfef0a89bf3c353cb616bca2bfa1aa7beed86d8cbf;
  0x1355aa97f7be6873fffac335b57c4833fc3fe9602608484bf4418b60fda6f7d3f;
  0x1c91a9f19375d743fd87ff7d1a9c4a2bf4bd87b9ac420a23f31adbe3a3e03963f;
  0x183e91c9722f4a0bfac5a09a37b079bbf6dc1a432c30f65bf3fc23b3e990896bf;
  0x17adbcc654540b0bf40b9e6241f18a2bf890f24904beb903f9eed0e874376983f;
  0x13b93eef84fcb7e3f3f05b7370b0aa0bf40d81768943c183fe49393036c87993f;
  0x1cc3e42a12b67a3bf1fc66513b6f375bfc33f79465834a13f69731f25af1281bf;
  0x15900f4a476228dbfe441b5602dcc5cbfd980160ac583b0bfcb03bf089531a5bf;
  0x186ce02f85caf91bf28dc199ade929e3fa9d2d8fc65008f3f65c088fb9eb97f3f;
  0x1d9e1e5f7c8ce9c3f96dfca2d71b580bfb9eea397601683bf]%N.
Definition file_170 : list N := [0x1934e554d5059010076007b276465736372273a205b2827737472756374757265;
  0x1272c20273c693427292c20282763656e746572272c20273c693427295d2c2027;
  0x1666f727472616e5f6f72646572273a2046616c73652c20277368617065273a20;
  0x128392c292c207d2020202020202020202020202020202020202020202020200a;
  0x10000000001000000000000000200000000000000030000000100000001000000;
  0x10100000002000000010000000300000002000000010000000200000002000000;
  0x10200000003000000]%N.
Definition file_171 : list N := [0x1934e554d5059010076007b276465736372273a205b282773706865726963616c;
  0x15f6861726d6f6e6963735f6d272c20273c693427295d2c2027666f727472616e;
  0x15f6f72646572273a2046616c73652c20277368617065273a2028352c292c207d;
  0x1202020202020202020202020202020202020202020202020202020202020200a;
  0x1feffffffffffffff000000000100000002000000]%N.
Definition file_172 : list N := [0x1934e554d5059010076007b276465736372273a205b28276e272c20273c693427;
  0x1295d2c2027666f727472616e5f6f72646572273a2046616c73652c2027736861;
  0x17065273a2028332c292c207d2020202020202020202020202020202020202020;
  0x1202020202020202020202020202020202020202020202020202020202020200a;
  0x1000000000100000002000000]%N.
Definition file_173 : list N := [0x1934e554d5059010076007b276465736372273a20273c6638272c2027666f7274;
  0x172616e5f6f72646572273a2046616c73652c20277368617065273a202835392c;
  0x120332c20352c2033292c207d2020202020202020202020202020202020202020;
  0x1202020202020202020202020202020202020202020202020202020202020200a;
  0x13e999158c8f0b6bf3e751cfd0e1db1bf212392fe4e49973f4cb4d502606a79bf;
  0x1fe0625e194574ebf52d7cba72e3d2a3fa8e779356713b93f0ac12eb228fc9d3f;
  0x150b8786b39c786bf40af8e6230764bbf398bf8621edb623f00067b9657a552bf;
  0x1d5cd5c44ba4bbbbfdc4d96ab0c72a8bf672a5e7873759c3f599d71fdbf46883f;
  0x1c6cd1472bf20b1bf421b4a724c81703ff5dbf19f1d83783fb6ab527da5dc5bbf;
  0x172d3f8e383f35cbfd32667ed132dc63fa62057cd4d05993f67cb5ad1b15f95bf;
  0x144b4d502606a79bfdc0625e194574ebf36d7cba72e3d2a3f7f6d234175b2b43f;
  0x15d0baa56ecb3a73fcc961930777094bf54b4d502606a79bf3d0725e194574ebf;
  0x16ed7cba72e3d2a3fd3f82ff05d97c03fa6ba9e337121b2bfe2d99e9a15d27a3f;
  0x1dafdf070c277813f11991a8027e076bf2e15913ca02855bf931aa63bd92bb33f;
  0x17f8070f3e55db0bf47e5821d93b7893fafb143ace3f16bbf7ff0d090b864603f;
  0x1cd9afb9a589c343f6b54f41a19aa9d3f62fc643211659c3f7c8cbcab984693bf;
  0x101274b600f22403f42381b6a03a74a3fc48addcf352827bf6d3051f9fae9903f;
  0x1daddb85b6c17893f7db928b37c0889bf628bcfc156c541bff0d25006a00241bf;
  0x1e91b4e3d4318373fe292ce7da5ff62bf4e5bdb95a5be963fd027300da709883f;
  0x1b9f4a1cafd3a94bfd225cd7e7f037bbff76cc6ec1e6d923fd6aae894f7bb32bf;
  0x140ddd5e10b0419bf3ba0df574110313f2c01f8c65e258abfca9a5762ba6483bf;
  0x15ab1510a2f59833f01274b600f22403f42381b6a03a74a3fc68addcf352827bf;
  0x1907b4f139e62883fd23ce0a49760a43f8ca91c65b105713f02274b600f22403f;
  0x143381b6a03a74a3fc88addcf352827bffbdfc2775baf74bfcc1b3bbbb2279dbf;
  0x171221321bf197bbf02adaff2de683a3f83f953575609523f0cae179659b5033f;
  0x10bc9a3fb31c37a3f24f2a85d4fdca23fa14cb6a11188813fed6bb6eeb5ce20bf;
  0x18e2e2c143dc42bbfb8eeb9950720083f62d9cd62fbe3a23f18782315f8859c3f;
  0x144d09b58af8c6cbf40bf4c227071aabff19fa861a933833fe6244ec5ee7a703f;
  0x1d0ced85d1016aabfc4fd1eb362fa68bfdcf7dba0ec25713ff20f101382ebab3f;
  0x1da34f88e1914a53f0fd4ca14101975bfba9e45d3ccfda73f82a138bb33348a3f;
  0x1ad1f06fb917e70bfd8f03af1d9bc513fd0678e83879c953f38b18dd3d4333ebf;
  0x190a8c45a2843653f36a983ffe3e7a93f5cecbe3f1b1a52bf1058c5ae3128b5bf;
  0x1cc57856b1e4274bf248a83b8d4d07b3f40bf4c227071aabff19fa861a933833f;
  0x1e6244ec5ee7a703f62939b91b7eca4bf214c89e0e6c89bbf224f9a49c3156f3f;
  0x140bf4c227071aabff29fa861a933833fe5244ec5ee7a703f7eba9217c6bcb0bf;
  0x1cd901c999bc4a73fe74e39c66a5c723f9fa88a8f321c9c3fc777a167f7a3ab3f;
  0x1fcd5d104c30e6abf3098c6580ba3a4bf435e0e8f344e9d3f25a4154a86a3663f;
  0x166c5638d4f979a3f6ed12dc2294f73bff818db44899260bf54e1915b3334a23f;
  0x1e015cf971e1a9c3f2a74740af7ee6cbfdd18e460b42dad3f02973d80337388bf;
  0x150a7f450287470bfd86498a089eeacbf942acf92670260bfebcb245eb2f9713f;
  0x1d93eb7068cc6aabf10e14035ceaaa4bf7457fce75647753fd422be6ef707ab3f;
  0x161dd3bbeaf458a3fb173ced48e1e72bf981c742372c86e3f5827b05ac3a7973f;
  0x1331bed4e10b14fbf9097a6b0918880bfc615348f1269a9bf46dd8cf28105613f;
  0x14946c87f1721b5bf00721ecd3c6267bfdb387cf95b417a3fdc18e460b42dad3f;
  0x104973d80337388bf4fa7f450287470bfdc41a901af16a8bfe66e3fd1f1a299bf;
  0x100e8e688fcc8713fde18e460b42dad3fff963d80337388bf50a7f450287470bf;
  0x1e912f366c2e6aebf1627a1b98056a83f4098709988726a3faaa3b57c11d2a2bf;
  0x1466331c30c66aabf2a4446edb7bf713fbe698a4a0128a5bfcdc21b4ba3a9a03f;
  0x16b7e31045d1b623ff8988d9a67a496bfdbd2cc6711f9723fa8d16bdd2b89593f;
  0x148ad9c07460486bf845676de73caa3bfbc94929a1fb0873fca9326e1003e3b3f;
  0x1164984273d1c603f008c9853e0ab26bf99e8d946abc57fbf1444067e9ab796bf;
  0x1e986287d01e2873f128b27f47e5d4bbf351e36853f9968bf42fc269848714d3f;
  0x1a6022d0c6d9f803f32b2f6ba4e298b3f213eefcbb76a92bf99c70d3f60a4733f;
  0x164f459c2db1164bfa3a6094d720091bf8d490b8584b527bf48738738ab39183f;
  0x12e7e6c80a285443fe6427910e4da6e3fd1730e79bc0f863f901ef271863177bf;
  0x1cb9326e1003e3b3f164984273d1c603f048c9853e0ab26bf3ce27681565a72bf;
  0x144f481164d1aa1bf927a9b8ea26a75bfcb9326e1003e3b3f164984273d1c603f;
  0x1fe8b9853e0ab26bf081ff23ce5a6303fffe6b2648f758b3f89acb85fc99e7c3f;
  0x1a8cc17dbdb8d353f63a04caf35b7653f663690bd4a5d403ffc0b4be8992541bf;
  0x15a9fb1ce7f469cbf7e7bb1678f788dbfaeb8e4d21d7035bfce59fade0c5b59bf;
  0x128fc742f4cd7213fa6e3f019235351bfa6f706d2fb03973fecb079a7a25681bf;
  0x16b5c7300f6f107bf761b48c23e38473fae8c7af018be223f524d02ecdf60483f;
  0x1af4d8e3256618dbfff23e2879477693fbe0dd0b59f8ff4bede58e4429c503b3f;
  0x18465908dc69324bf0254f070eb39533f40b0c8b14a588bbfadb623fe8dd08abf;
  0x199e7c77562655cbff9970921e740a03f16b6269a9f5a70bf58110e48671105bf;
  0x1c348eafb3a1e483f3e1e0279654418bf3361430d067b4e3ff7682da4ff5d92bf;
  0x1f34c74e17dd76f3f6a5c7300f6f107bf741b48c23e38473fae8c7af018be223f;
  0x1d42d84d3517037bfc099fd08a31241bf528e18de77698a3f6b5c7300f6f107bf;
  0x1751b48c23e38473fb08c7af018be223faa15c7751edd4d3fc1b93d9c118780bf;
  0x181ff1a7667f68dbf4ac303628c68083f48cc0a87f06843bf94a0746926143abf;
  0x18ef55f0c95e2473f4c9b901009707abf0e7f192bcef687bff0144cda2e93e53e;
  0x1a738f0b4d9eb24bfcaac1ea227e300bfa091a7e02a85a1bfecfd177cc7fd84bf;
  0x1d9bb3fbcb86ba2bf1bd145ee008376bf903824a240e14b3fa864cbe7a8a5403f;
  0x1a654f0763ddb943f4e26e50f8e9077bfc630ee9f696aa3bf00744a6c2a3849bf;
  0x1a0c9b0ac5ce063bf80ad6267c365203f7add07516a20bf3fc410a9ad148fa93f;
  0x1f958642b62d79a3f756b342b8a91b8bfe8604f4c140d7bbf68cc9e6d256c833f;
  0x157b700ee7c4d773ff5410958c74380bfe82b3e8841a8513f6c49749da04998bf;
  0x1fa91d93efc5fb33f701a25892cf36b3f1ad145ee008376bfa03824a240e14b3f;
  0x19464cbe7a8a5403f6ff8505b7638983f3dd66b82bae6bb3f0c000de047f4abbf;
  0x11ad145ee008376bfa03824a240e14b3f9064cbe7a8a5403f4a6ddbce0255b9bf;
  0x132864a15f743883f19d85d46421e993f601c675e49af82bfa8dbfe59220a613f;
  0x1bc978e8104f15e3f4382df30ab2daf3f988a38025c13a13ff49a35c78eb49ebf;
  0x1cf058a3b82746abf201fba596097663fa0aca33612373fbf1584071af5301a3f;
  0x11e77592c252b503fcd07cdc9f65eab3f27c303002ebba9be094c94cfe936c6be;
  0x11f3d17b4bf612dbf66f49055d150fb3ee190cbf56f57513fba166710dfa2a63f;
  0x18714140e9059b13e508d5600c96be53e4e1445ef9e21423fc8432001e45dfe3e;
  0x1d3933c5e54d859bf47f466599e1eacbffed1ca568465263fcccbe692d5d051bf;
  0x14777b3e700858bbf79047b04c2b4a6be8a2a1c33de0fd23e500587bc5ee60b3f;
  0x1cfc32c301be7e4beeb6c361b5f8a3abf9baa802c675291bf27c303002ebba9be;
  0x10a4c94cfe936c6be1e3d17b4bf612dbf6df70a69011e273f904dfa1dc62c01bf;
  0x138797eb693f59b3f37c303002ebba9be014c94cfe936c6be1d3d17b4bf612dbf;
  0x1669217219a9118bfa2b8e51cfbd9343f5325a71b15c269bf905dbc50c6ebbdbe;
  0x1580297df665eb93e801868a3f1562ebf7cf89e119f0d303fe9638d64aa3f4bbf;
  0x19d92409191d4803fc4965110f1b3ac3e18f090cdb3c7c83ef9a37c033963303f;
  0x171ec5935cc7281bf10e5db8ac97497bf3e5e3e60879c803fa53b3b6d369470bf;
  0x130479efbb11c8ebf7202b1737f3f5c3f1c89242abc7a733f1863a2361a71683f;
  0x1ca1a7f7e0f7684bffb7e25fa402c88bfb979d4ec7b3fa0bf13f4e6726803873f;
  0x1e48f6d75ce5e86bf53607105ab908ebf2ef264e034e4923f868765a0e4ff57bf;
  0x1d8f662774ae6933fefc4779524888d3f444f53ff819a45bf961f11beb1e9813f;
  0x1de6867355d957a3f9477f9794f50593f480461482ac34f3f4ebeed0ee9966abf;
  0x1a53b3b6d369470bf30479efbb11c8ebf7602b1737f3f5c3ffb1a2775926972bf;
  0x1f0895843c7f498bf720c4d18c20765bfa53b3b6d369470bf30479efbb11c8ebf;
  0x17202b1737f3f5c3fa8525cbcdd1756bf4fce039ad3c0693faec01dbafab5743f;
  0x186fb869f91d66a3f8e6e4916365c993fde1f02cdd3a6773f9790bdcc4e0071bf;
  0x1f51c428b51d1833fb6553513f8df8f3f064a30da98d276bf9ec1585ce8b994bf;
  0x1467f66b07371633f33384def8be77dbfde4f01b1268896bf91bf8406b1627e3f;
  0x19a54b36df2b96c3f2f168615711a8d3f8c6eaef0766a58bf468be5584a29713f;
  0x1286b38137beb663fe998d9eaea2c84bf24635b47e949863fd60991982dcba03f;
  0x130a4b8e2b1a586bfcc069e99ecbf84bfb85263db58e490bfc55531fd36b9923f;
  0x1bc88e223db9e55bf7c62eb1b08ad933f0cbb9c0d06c78d3f689e087952e6433f;
  0x193c560f81e1c82bf0c0d647849687bbf2b8244924431553f6c314f4bbe4d4c3f;
  0x1dae5bc3026ea68bf9954b36df2b96c3f2e168615711a8d3f866eaef0766a58bf;
  0x1965dee5c08d96ebfec89eba62c6497bfca073fa08b3e66bf9854b36df2b96c3f;
  0x12e168615711a8d3f806eaef0766a58bf8c8c1a15483755bfb9003167af21633f;
  0x1dcc0b73253ee733fbaba990f108a66bf0c4477d880c898bf1fe3332c2aa379bf;
  0x17bd07104292e71bf86de842e20fc7e3f517203d8c623903f3bd9ca1f840b753f;
  0x13a3ba9563552953f4c3b0d4d1ae361bf92dc84b87db7a33f52bc78e14f73aa3f;
  0x1269d2914063772bf8af5e0efb7ad773f1bbc455741b453bf9c917f5100da3abf;
  0x165cbfe847de893bf64caf172c956953fab980b42a44f4d3fa249d1915b635a3f;
  0x16c30209439b3613f6a36465acd6028bf4e4cdf94bdb3babf249a72972b447ebf;
  0x14d8d0cbfdcda803ffafdd981a22bb63f19759d16301ea8bfe07f566633b675bf;
  0x1d2ce8a9c436f7ebf335820f8d38d703ff287a4490ece3d3f77209365796ba43f;
  0x11dbb16572fe3a5bfb139a4c27d105ebf8af5e0efb7ad773f1bbc455741b453bf;
  0x19d917f5100da3abf6007b82ae3fc613fe07d7ac140c9aebfb4b71dd69e97593f;
  0x18af5e0efb7ad773f1dbc455741b453bf9d917f5100da3abf16e214e1f7faba3f;
  0x1004b5e639053a33f046a02bdcdd082bf2adf9ec62320833f762de0b51bc54e3f;
  0x1a688f009166848bf820911cfe64daabfc3d3030298d792bf64165c201c58723f;
  0x19c907f400d84723ff4ff40b8dcd04ebf92d1637b3aff34bfaa31e50f0ff28c3f;
  0x15b2812194724a43fdcf6ae0c459e8dbfd64901b58aea1d3f80911f36debd3c3f;
  0x1da9dcebe3f7c09bfa2682cafd62182bfed8aa0f286ba94bf5b94059436a2873f;
  0x10e9d444c03a5263fb9c2533baf833f3fc21fb680bc2b27bf9bc7164bb293783f;
  0x170ede8d8c6944abf445dc16d566590bf5b966fb324ae803f723b0f60a56e7e3f;
  0x159ab6035c85491bfda323ff0a75f103f5a770d3773df0d3f60d7d7573b0321bf;
  0x1e66e946264c076bfa39e52a16a028abf3eaf715790a77d3fd64901b58aea1d3f;
  0x180911f36debd3c3fd69dcebe3f7c09bfccb38282d48a753fa0a6b3980504a23f;
  0x1bb74c7a7f366793fd84901b58aea1d3f82911f36debd3c3fd69dcebe3f7c09bf;
  0x1c493a622d87648bf6109e69bd84592bf1377b22b42a380bf59dc9fab8af215bf;
  0x140d9d74e1d7841bf8532058628e315bf6909e20f457f53bf3049829229209dbf;
  0x1f3399473f6848abf44074aa85eea0c3fce1372d4c0c72b3f862179a304a2f8be;
  0x1c48f37b2a82466bf7316f92606dba2bf6a28f20210e18cbf0efc4c6c3cb5223f;
  0x18c36547930c53a3f06a8e0c15d280fbf57e433f7a61a51bf9b8b004f8a925bbf;
  0x1f26f767a9e4f523f4d99742ef9d718bf056f46a7b22755bf55a84355563340bf;
  0x1549a13a7cb7e62bfe9ce5c3589dc81bf08e0d0f8a3d42fbf07b146fa696d6f3f;
  0x1f10d565c6ddb813ff1f94c2c94c666bf91528a960e5e5c3fb995964e521e703f;
  0x16afa9d99df8e54bf996bd5e46a858bbf592ac0c4ba2e96bf3a673e938e768d3f;
  0x10efc4c6c3cb5223f8d36547930c53a3f08a8e0c15d280fbfcb29333b7e9397bf;
  0x1b84c67b574d7a2bfbd5059e98e68993f0efc4c6c3cb5223f8c36547930c53a3f;
  0x100a8e0c15d280fbf4cc8c084cc3468bf3e000b017e39a3bf8cc6875316aa8cbf;
  0x116d6948a657245bfa3372eaf37fe68bfaac0070c3d8a36bf4345ba4c7d162ebf;
  0x1bd9946704fe567bf68425b158bd051bf279c71298eeb4dbf7b3168f83e6865bf;
  0x17d4cf8dd68ea383fa8fe6d7251b35c3fa718c0a6d6c0983f574882e3dc6cb93f;
  0x1a7b38025af7f813ff320227ae8ac4dbf840f7217eece32bf165cf935a67e943f;
  0x1fdd31ee30c5c9bbfb3799177c8b1adbf14cea7ae3eaf553f62a0fcc10b49613f;
  0x18b4f468bcf3349bf12d3813d16b6c7bf063c9f40b8c1ac3f2af9f8e062d8aa3f;
  0x18a8d72d5c1c8ca3fc03bdc99596c7a3f15d38a9f95b6a83f8c12710afaec7ebf;
  0x1a28f1c597047803fd4d8bb8d6e901e3f2be69573a0379c3f918a68899155b0bf;
  0x1fd67a473469a9bbfa8b38025af7f813fef20227ae8ac4dbf840f7217eece32bf;
  0x193b48d67ffcca7bf66a1c5b48b35b7bf615c1a743a38b23fa9b38025af7f813f;
  0x1e620227ae8ac4dbfc60f7217eece32bfecf1160b3991b83f80da19570fb1713f;
  0x1e3b117109cfc92bf0c0ece97c2c3853f1e01cfcfd87a51bffeb9bcf6aeb357bf;
  0x101ba48a6690aae3f8e06aaea27bb903f80c4f6cfe925303f0a830ddb642c723f;
  0x112cf3ad15aea67bf28cbfd5cdd053dbfb86e1d1e6bfe2fbf5a558940f4423cbf;
  0x1a656a728419dadbf6c48bf3c6e9320bff06e83f64ff0ef3e0deccff78c0e95bf;
  0x1d873a74d60b4153f3c42c172d99a393fe15b499fd6f39d3fafbf915ab8d21fbf;
  0x18cefca7e5a1c2cbfa188a069ce749dbf0cf8dc5e1a28093f3d67cc7f02ee46bf;
  0x101fe36f90c0394bf60ace64a9f8407bf0ee8aff7389046bff3f278542dbca1bf;
  0x1fe9cc6a5c40defbe3339d2a10ecb2dbfe6d3284cf46a87bfe06b47ea1ed00c3f;
  0x17db1cdbfccfe303f7a4e4fa38ce1933f6c48bf3c6e9320bff06e83f64ff0ef3e;
  0x10ceccff78c0e95bf98dd4b5e032230bf69e14415be10403f38c92481f56696bf;
  0x16b48bf3c6e9320bf006f83f64ff0ef3e0deccff78c0e95bfe2901fad1f7f193f;
  0x19e9ebc00a2f43ebf03ea6e22892163bf728114cbfb46233f7dd6eef12d7f32bf;
  0x1d8387c9e5ca18b3f544b8347d534233f143fa6f1905147bf94197eae8dd26cbf;
  0x110ecd8c5fff00bbff09a743042ebda3ead1e8c4354bf81bf4baefaaca1ed38bf;
  0x1b30b769089e7283f09fb2e6b9697adbf15f0719a10fd253f779c9ab4811e2cbf;
  0x1dde019b913a2943f7513e560ce93243fe28fa1805e82103f452f1faac1579e3f;
  0x1f3bd6d8b69f9283fa9bb9f8d4ef318bf717dcd8892a59d3fd0b1cfb09b13f6be;
  0x1ac139e775d2c3cbfcd3f84ed5fb395bfdba434633e7a20bf3f99ab17e86633bf;
  0x1a9a95caf5849a1bf48e6fcbb716c053f0312a8cdd539193f6a5416aab679863f;
  0x1232608a86fb41a3fe177fd29e26c053f8e15282068b0933f17f0719a10fd253f;
  0x1779c9ab4811e2cbfdce019b913a2943fed60eecfd7af32bff99e90cd60a9453f;
  0x1b5ff3fe33eab96bf16f0719a10fd253f7e9c9ab4811e2cbfdee019b913a2943f;
  0x119fc1291e649153fd95acbb9793b3abf8c3340eb824d63bf40f07b96fa1f26bf;
  0x1a1b133621d62393faef5acd31e2d8bbf548698c76967203f001bea9f993644bf;
  0x11a9aa96359bf6dbf61846e1c4d9e133fd6e6a32d921619bf3f53c233b768823f;
  0x1a45c326166f4573fe88c62b22601a13f3a416b3a5b6a8e3f2736a95c660624bf;
  0x1ebebd5fdb58e40bf82df48a329fa103f5b61c9aaefbc573f238a6d689cce663f;
  0x1b8586ea572ff5bbf341e44f5f06a053fa884906a40684e3fa5137fcbbb313b3f;
  0x1a0b54bc38433683f816e2900fc218b3f805a1a1f1218453f3af7370d9f5375bf;
  0x11b173bfa2d258cbf5dfec2b27bce703f43d8517fd37253bfcec4f6f6a9aa69bf;
  0x13a64951d2ea74e3fe10affb43436883f116d77ec1f43973f73ca0bbf7a8e8cbf;
  0x12736a95c660624bfebebd5fdb58e40bf7fdf48a329fa103ff8b851ab4351943f;
  0x1326630efe211a33ff7d07801777498bf2636a95c660624bfeaebd5fdb58e40bf;
  0x180df48a329fa103f5c3e96ed832e613f455f18d18d14a23f655aa4092add8d3f;
  0x142c32bfcf5683c3f22121966ba3e633f745ecf512eab343f947ef00575d8303f;
  0x14135d8b6feb9713fe37af89895475d3f34f9fb062b1e443ffb72cd085da2603f;
  0x168dad537500e31bfb80b8be33c64783fb689e44887e065bf2cdc6478464b39bf;
  0x17f000e7ba8b7febed8266eecb040d93e0e0583e5f594c13e3f161a30540ea7bf;
  0x1b4a1debd6856a83f9a2cc1634db3613fab20ae10efc84ebf7cf115f67f9c3b3f;
  0x15296247987ec0f3f8011b358b3ebb33f8449e4f94011b5bf877be93a478d6ebf;
  0x1f3f433548ceebdbf1b53e9739aa4a5bf18f6c1a578e5843fed02797770603a3f;
  0x16eeee68f8612233f47b51b54186a02bfbcc27255181950bfa180bb682afe503f;
  0x163e7b1b2a5b7083f7e000e7ba8b7febed5266eecb040d93e0f0583e5f594c13e;
  0x14fab6880f2e27b3fe0031aa0e7d8083fbaa356c58f4641bf7e000e7ba8b7febe;
  0x1d3266eecb040d93e0f0583e5f594c13ef431c95064ee64bf9131bf2541324ebf;
  0x181bdf7c2a5372d3fc771d89464f54b3ff65947737e1d173f86a684c4faea11bf;
  0x1faf2f0106afabdbf728a90cbb99fa5bfcead3e5f43ec843f105135a693fc45bf;
  0x1437a22ae3c13223fcc25a0e64f2b093f184659b2ae7f81bf01b44332ebe3abbf;
  0x17e4df764b1635e3f6d524741e03581bff9e4b5217e485a3fcdce2bb8c4c5443f;
  0x1b8c87e3257e3973f49c7f7e985a198bf717c6dc69de755bfe8f47eb3403040bf;
  0x1e6d209bf4bcd69bf9f12af422a1d1c3f5268a53219bdba3f98a435e06db18c3f;
  0x1d6afa409e1a281bf86afc2b28f42b6bf3ca84a7369e1a93fa8610f2416de773f;
  0x1f870d4f02a04813fd00265cdaec873bf402ce348c03e42bfa6b5ede322bda3bf;
  0x1d46745f7485aa43fd781cce69919623f6e524741e03581bff7e4b5217e485a3f;
  0x1cdce2bb8c4c5443f546e68f045db943f1880e7c415bcaa3f281409634f8066bf;
  0x16f524741e03581bff3e4b5217e485a3fcece2bb8c4c5443ff2e68c49ec7eb8bf;
  0x1dc8def7f865fa3bfcff1ea82f242813f8755cf95fc5a88bf8ecfa8bf2f2d58bf;
  0x1791317b8a405503f252f7e521da5ad3fd6834d530d72973fc60ca738d7e374bf;
  0x148600cfc2e0772bf706580b723884b3f960e399165c2353ff87197296c61b6bf;
  0x1547f7b0a46d7adbf58531a42d2dd783fb86617147c2797bfbac912da34df6ebf;
  0x1bd6d5a63e5cb743f86143dd11a86b83f3fb06076fc38953fb90b69c18a5b4b3f;
  0x19c0463ba2db595bf16d7f768d7917dbfb9d07615ddec54bf83da9319b9f3b7bf;
  0x170f4e1b8bb22a8bfc8ced9628af6893f92a24ffda7ed783f9991d804acbea4bf;
  0x128a88c4bc29a6ebfd32450692acab5bf4c059d192b668c3f0869178c7a2a743f;
  0x18d141e7331bfc43f303e24ae6b2b913f483fe05ec06a8abfb86617147c2797bf;
  0x1cbc912da34df6ebfbd6d5a63e5cb743f4c1cb2306ca4b13f4268471e09cea93f;
  0x1b2a1ba5e0c1599bfb26617147c2797bfaec912da34df6ebfbd6d5a63e5cb743f;
  0x1ee9676edaad8bf3feb9798b36163b4bff648980494d7803fc88843e3a690af3f;
  0x183e17b513cd1a2bf0a0de67b0f5b78bf76a0107b2015b43f2e729d1a4d80aabf;
  0x13cbf76a90146853fac63b7fade5ca03f72780c678b9785bf341d75d1b16569bf;
  0x1412e98aaf5a0923f84e3511196769c3fb6d7851c8dc790bf2fe9da1259b27d3f;
  0x104bf184a94ab923f168fe472541e68bf4d09a23991a1813f76279c03e5b3813f;
  0x19ce37ca4a88284bf561a9c32df7780bf770b6b3c832989bf3011e549bcaa7d3f;
  0x1fc0e93d36b115cbf46b40937e0a7923fcea8bd7c838c883f2ded30d62f748bbf;
  0x12c12bde4f0e786bf1d288731e522913f5f9f81a6b15773bf728936516d2370bf;
  0x1fdc27d278e25783f3f755a326f1a7cbfeb0077b5a5377cbfe522bbd5a958803f;
  0x12fe9da1259b27d3f03bf184a94ab923f148fe472541e68bf1ad7e3ec8c29793f;
  0x1158746dd111aa13f8cac1c8217a47a3f30e9da1259b27d3f04bf184a94ab923f;
  0x1168fe472541e68bff057a6bf30a5253f64f289017cf591bfdb372044199182bf;
  0x11c964d30c7e9733f2a532baa0ae7953fdeff683bc373653f1078bbddbe282bbf;
  0x1daa79d24a488963fe887cc7de54b873f962a6d7d19305bbfbcc6cf93cc1771bf;
  0x1c9389d89b814463fb2753f465e8ca03fceeef6171b9d913fee9dc1b0597b68bf;
  0x1caaba91527b8a1bf42a76b17c7027e3f5c1a18599fd0633fcc82356478a1afbf;
  0x118cd9b80e8da643f4e494e4fb2fe723f5209bc910f6eb43f2f2b97b9c5bea53f;
  0x1a61ef3536f397ebf424374a20d36a23f5647169f48f1853fde04bdcf5be668bf;
  0x194c981977506933fe8cbff2e0b4f8d3fc944ff9c5b585ebfae81e63d27f4ae3f;
  0x132712e4aa9d7a73f5cb721f97daf78bfc881dc84acd7b4bf9019f1a1f17b6b3f;
  0x1f6d1bad45c08793fcaaba91527b8a1bf42a76b17c7027e3f5c1a18599fd0633f;
  0x1b6375de7defca3bf0e9edcbc482890bfb5bce05afc536c3fcdaba91527b8a1bf;
  0x13aa76b17c7027e3f5f1a18599fd0633f3bd1faee09d5b1bf844a4ab65bdca33f;
  0x11f20650cf1f3703f46d996fb39bb91bf2818012bc67cb23f60edb6393a804cbf;
  0x1c7e2e26ef20fabbf6187433b12249e3f3cd9c25956ba693fec2123cbefcf833f;
  0x10b30ba841cc760bf279d456bc52746bfb1a16a8dd074a83f6cc5855c3777a03f;
  0x13d705be3ca3172bfeff21af0b547aa3f101010cde01083bf96f13cf0486370bf;
  0x179c941c07a1ca3bf1eb506a61e4d72bff0da0c80ad74693f0c46415e9228acbf;
  0x150a044f34ff5a2bf6df714abe2f2743ffedfdf6a0daba93ff253aa33043e853f;
  0x1498688d9f26871bf81542a02f1e587bfcb9905bb6e19963f9a18e7f04293423f;
  0x1d8772a329dda9c3f1160101b9caeaabfcbaf0d335b6d56bf666d1de4640ab4bf;
  0x1440f8d61f33083bf91dc152c93b17a3feff21af0b547aa3f0d1010cde01083bf;
  0x196f13cf0486370bf96ff1605a6d8a0bfbd6f21348fd8a1bfb857262de6e56a3f;
  0x1eff21af0b547aa3f0e1010cde01083bf96f13cf0486370bf6684344bbe1eacbf;
  0x1136b66d46700aa3f042f60b0b62e6d3f8b17d8bfbb53a8bf98f4a7a84760a7bf;
  0x130b2c4ec7d15733f0817267ae9d09abfbb903472b9cb983f387a442445d45b3f;
  0x1fc40ab7bf04aa5bf06ff2e9f30e57e3f5f63d877398e6a3f6d64fbf1f3d781bf;
  0x12159dde1f0f9a1bf469ce1b00e72843feb348504cd815dbf8107f6d8708983bf;
  0x1bcec98a7b3c9473f17f4d10732d479bf2d3b9164514793bf423fc7b1b7b3863f;
  0x16b32feba2ba7703f15b70d20e4c6903f90aec9e3d41473bf9c6647857b2f803f;
  0x1ac328cf12604913fd96f91d1146a92bf2eef0873d5826d3fe64e2992e53d79bf;
  0x143fec7fca4a390bfb9b7e8aff816483fc4c21209d09a54bf821a874c402a6bbf;
  0x18fda69cc6097663fe818b219b1dc803fa17681d03cdb73bfec348504cd815dbf;
  0x18107f6d8708983bfb8ec98a7b3c9473f7daf4337a9276ebfdb57e17b4f459fbf;
  0x1ac48df8bae6d74bfed348504cd815dbf8207f6d8708983bfb8ec98a7b3c9473f;
  0x10a7282025eb830bf9099d13196d7833fc00bfcf15eed7a3fc86cb8ec899256bf;
  0x11186678dd1208bbf88c478dad80368bf2646b9a5c91d433f93484c228baf96bf;
  0x1ae8a28f342c98ebfe936024a99485b3f42e39e209110823f408518f6d2fe45bf;
  0x1cd72664b519b453f779c0b0892d463bf78c8b74b5857853f7143f4c2989dec3e;
  0x118f3f7c944430abf9f4750bc70412c3f92abe63edacd44bfd974e18c0918633f;
  0x124e81a12ab8d84bf26e5f0a91680053f6e4f747a94bb23bfdf1d3353733c453f;
  0x12119b17f4edf4c3fc8776ee5ba7f6abf5baaa12033878c3f62981e2f1bff2a3f;
  0x14adb61c479c748bf62f4ee1cabbb6a3fe6a42374e0c1d13e5aef5b85824cf0be;
  0x1ef1bfac48495113fb1861ff5f7802bbf61a7423f293e493fbd9b6c5a1d2c6bbf;
  0x17443f4c2989dec3e1bf3f7c944430abfa24750bc70412c3ff00902d4c1aa333f;
  0x1265ec578af0c52bf7c6c534d3268733f7443f4c2989dec3e1bf3f7c944430abf;
  0x1a24750bc70412c3f7e83886be671d1be2894e0755af8ef3edd2720a76f6b10bf;
  0x15ed8a7f60f5fecbe5faac947a4090a3f2e96c92649fc2bbf0190f33c1864eabe;
  0x11ce3b119b82e083f8aa67ed308d728bf8c706c9bda47f33e86d1c82904b211bf;
  0x164da93bac209333f36b460e719f466bf51c75e37e01a933f91fdf21ae8c565bf;
  0x142ba84eb4d143c3fd63e4afaa7b067bf7a8633840f7458bfcd424fb1dbe25a3f;
  0x187079757686d86bfee0bf421da4b393f69e2bccb335e353f9345535a08c961bf;
  0x1b750a1dbe144343f800ce3479ae1493feef2110efbb876bfe3bd62fc06488bbf;
  0x1bf633b7b40d96bbf1c8f375c1146973f6382d435e5d8543fa5fdbd589f753e3f;
  0x120fb53aca37469bf947c0c503bcd26bf1396abdeba965f3f68762236a1598abf;
  0x1e9eb14f388b83d3f41ba84eb4d143c3fd53e4afaa7b067bf7c8633840f7458bf;
  0x15c5add9ffe4f313fa036ebe8450b59bf1c16ab79528c873f42ba84eb4d143c3f;
  0x1d63e4afaa7b067bf7c8633840f7458bf87e7d95ab4e9313fb70f654d733261bf;
  0x17c72728cf9618bbff2bc44a2651633bffcb43e954462603f18cf2cde0bfb653f;
  0x14af9529f0f7e2e3facbfb6691d465dbf7207c64b664e87bf7336021ad72e12bf;
  0x12ed602486dae3e3ffc8ea7837fab2f3f30167bac98e18abfb60a42d2f1b38dbf;
  0x1c2e2aebbcdfca2bf84212d82fc2ba43ffca5b471ee6d60bf93ca45ba36bf8dbf;
  0x1403132ca5d59913f5897a0bd3e9f7d3f76dd7ce8ff21a3bf6d05149c5946833f;
  0x1927670ac7e9a953f95b9e206c048953f7add2f3f29ccb73f16472a0c59baaa3f;
  0x1f03d4b85024ba03f6379122cf3dcb4bfeae3ef8e82fe89bfb0fce91224568b3f;
  0x124438dc01e6da5bfc87664a833cc9d3f780907a923ce533f16bf37c258d47bbf;
  0x1d8ae81ea377daf3fb6bac80a283e713f84212d82fc2ba43ffca5b471ee6d60bf;
  0x193ca45ba36bf8dbf6a4f9438c6fb933f048a3b25d43ab93f6a6b480cf6b9a6bf;
  0x184212d82fc2ba43fd8a5b471ee6d60bf91ca45ba36bf8dbf79837da7c0bca6bf;
  0x12c708b19a1c17abf81b567c966e38d3f96f24a47f0d0a93f5cb771e05d3d623f;
  0x115e07c2bc62a94bf6179f030c2e4a43f10ac30838aa4aa3fffcdae0c140694bf;
  0x181449227b53e9a3f5500e8f7696370bffa4852ccdd0b843f83ba015f61472a3f;
  0x1e941c74fdd503a3fe13ebe5bf112a93f3dc8650f20330e3f245a84a24160f53e;
  0x13e1f1be3e038853f7e69182a55af1a3fce9e7ea3626f423f0900c8a163e6a33f;
  0x10052c0f337011dbf07b1d7beaf0b2dbfffa5a955c9ac9bbfeb26d8e1f2301bbf;
  0x1ccf82e48b7164fbff233493327c8abbf8ff1d1e51cf2213f84026f904b4c4cbf;
  0x13f552a35a87786bfaa259e2df2b7fc3e4962d03d83a426bf96733a2c2efa61bf;
  0x1d4e790f85d5803bfe2fb0f57a0ba2abf149fd8f757da8cbf36c8650f20330e3f;
  0x1405a84a24160f53e3d1f1be3e038853fa36147bd0bdb2b3fde8539a78abc30bf;
  0x11cb26b1186ef993f36c8650f20330e3fa05a84a24160f53e3c1f1be3e038853f;
  0x1739817ea34e813bfba08069484e7333f50dcb229c7cc48bffccce061e6401b3f;
  0x11661786a31ca26bffe88a9b25b76853ffb5dff02bf752b3f2b9dafc5cb744bbf;
  0x1822802b7c61a613faeed933f9a1712bf403b1d04b29cf9be88572290836d89bf;
  0x11d98d41f914b80bf8834b14221e791bf19f1814e65c47d3fe9de3660428874bf;
  0x10c807c13bdf88fbffa1cf4b97a4d613fd2edfaee9da7613f8ff988d507777dbf;
  0x1ee9051dfe92381bfcf2462a3f2658fbf186598747b3fa1bf300de6a1a5ad8c3f;
  0x110842847151986bf4a9205f37c7e83bf35ddb3d28de3913f26b9703ba8f540bf;
  0x166ddeb181903973f146232cdd0e98a3f6ca6402c6fcc33bf42c48ee83edd8a3f;
  0x1240fa518256b7f3fc74cffc08264453f9cf0045e05da61bfcbf50253ecc464bf;
  0x1e8de3660428874bf0c807c13bdf88fbffa1cf4b97a4d613f2af614ae548f72bf;
  0x1acb5ff08d6eb95bfda26911d036e60bfebde3660428874bf0e807c13bdf88fbf;
  0x1fc1cf4b97a4d613f01cca41035cc62bf60b8975140a2233f28e795b1cffe733f;
  0x12e16c1278f906b3feec8ebe3615a9b3fd493484ba6de7d3f0c24a232c5067fbf;
  0x110619fa50734403f3dcd5acd6a80903fa01f002a8fc77ebf2c16bc2ecbf697bf;
  0x13c0b272b26f0693fb7d79e8ee5e388bf207cfb458a869dbf184ec730e93c873f;
  0x14e39199a3e49763f1af944e6526d923f9a453c49e8e462bffda93d1c3638783f;
  0x1d70784f80fd8763f4dc1b0880fbe84bfbd1bfdb0e32f863f9d77c4e6a8519a3f;
  0x197fdc755d7b684bf0b313a5d306882bf8eee1ad9f19476bf2a2e445d526b913f;
  0x16e09d5b59c8c71bf12caa3c51691843f83826c025bc18e3f251c033c175d5d3f;
  0x1f839eacfcd3471bf2b8fc216e5ba79bfff95b5f11abb663f6618ba079a70653f;
  0x15c70f24bab7773bf4d39199a3e49763f1af944e6526d923f96453c49e8e462bf;
  0x1f41e5680034578bfecb9bd50b4b39fbf94df2a1f0f2c6ebf4c39199a3e49763f;
  0x118f944e6526d923f9c453c49e8e462bf31ad56a5254d57bf5ab190e6ec457b3f;
  0x146424e19e2d77b3fda8fa3ea830f6fbf9aaf4dd91cd198bf2937677cb48873bf;
  0x1339c9d59d1d368bf748835eb2f0f8d3fd5f12a3fb4aa8d3f38b87cc94084723f;
  0x11a06bf5adc9e8e3f06d89a2993655fbf26d21495a88a8d3fc8ae0d8bcabfa93f;
  0x154654c63260841bffcd1714c9ee2a3bfd4bd2601396d6d3f2dd14230bf03703f;
  0x18adbdf4e8bb785bfb46176f7b18a913ff63b7006b944563f62b00276057474bf;
  0x1653ca0e5d6d391bfd896643f8495273f3235740bd893b4bf849348eaee0795bf;
  0x158e43da33c137f3f824e10dbd049b23ff9cc25866fb4a1bf5a4a5276bf867fbf;
  0x190af95d2655ea73fa2370644859f96bf48aedac1602474bf3402e0374e0a943f;
  0x12ad7c0cffa2fa0bf8b0edb85958c64bffcd1714c9ee2a3bfd4bd2601396d6d3f;
  0x12dd14230bf03703f60d9caf76e0761bf4a1219fb7455aabf90768323a2b147bf;
  0x1fad1714c9ee2a3bfc8bd2601396d6d3f2cd14230bf03703f7fe690a91acea93f;
  0x117aaac29aa0ba83f363e81309df670bf6a5da63b168faabf12ce54dcfb3790bf;
  0x14befcfdae0dc733fa5d0de9dd1f69bbfb7a3543cb10e9abf3a9d4bdbf261623f;
  0x19d055681e6ec99bfe8ec9779b92e633fffd2d5e30ce1643f4d05c533fcfc923f;
  0x19b97ffafc511a33fc0ae603fc9f68dbf9562141c8a671d3f45b87781a81e343f;
  0x1d0a36ab1004c08bf5f4a0f72019789bf21c5a1bfd49193bfc269bf8243848a3f;
  0x19f2e158bc1452a3fe5d5d97484623a3ffd9852f1b9ba24bf26ecf9bbd712873f;
  0x10c42e4aad643733f9512a57c139392bff7c70390ce5a7e3fe858c9c163f577bf;
  0x122b1405d7ff190bf3d2a098255b5053fe6d94c8c532201bf5ca81210f83b18bf;
  0x1bcec995212747abff25d04b7e33a84bf7cfdbe0356697b3f9562141c8a671d3f;
  0x145b87781a81e343fcea36ab1004c08bf3aa84a3ba034823f45e7ee40675fa33f;
  0x1b6f4d2637a026b3f9462141c8a671d3f44b87781a81e343fcfa36ab1004c08bf;
  0x11c390562881b59bf8726d2e64f2092bf266dafc66df479bfbedfdfcd38d319bf;
  0x15c17d15332b83cbf8cb5c6b1654508bf5dfcd4bfb64968bf306aa1b8d588a1bf;
  0x14b55a695871b89bf10e4922a6cd8143f207163e6ce862c3fa08992d27b3901bf;
  0x1202dd1696ca8113fcbf38b79bfc49bbf0a42b0b25e708fbf10cf2f41c9f752bf;
  0x11af08d83c19a71bfad78cb38da29403f71f79b1e407e60bfc4eb5d14a83171bf;
  0x1c65a217d3f0e663fd0ffe0c91372e5bec1811925cedc703f0b05dea06417633f;
  0x10892619f733b70bf9c0eba2e88e094bfb85d6802286558bf1a77335617f37d3f;
  0x1c597fb2437fc953f2d09686f92c679bf7fd0b109daec75bf974b6934401890bf;
  0x15df013cc9ede723fe3f7db6f1de283bf650588ae65ba94bf3d7cc50ccf968a3f;
  0x110cf2f41c9f752bf1af08d83c19a71bfad78cb38da29403fd7112083c87790bf;
  0x12bbe1f4e5c8ea0bfa2625e13e6b4963f11cf2f41c9f752bf1af08d83c19a71bf;
  0x1ac78cb38da29403fabd14a9649d745bf85c5bbf2f98e9ebfc546a6c06dcc8ebf;
  0x1f53ef237cdab5e3fe4659983000f883f2fbf4aa965f05e3fb661a218f91d22bf;
  0x1848990b5285979bfd531c03d228c69bfffdfccff20e2653f08acafbd734f843f;
  0x1aedb49f7d8a552bf8660cc3575b7b43f46028ecf862e8a3f7e8091586026b43f;
  0x1870cd0baed6099bfc5ceb8669301763f2819d171cd03673fb06d17a890e79e3f;
  0x1deeb39f4f640a5bf04ef4a48da04a8bf528ce0b3df71a1bf31bacb1042c9863f;
  0x10e153dc1690c803ffc3d5a11264ac3bfcee3a0d2cecdb13f8691a9402ee2a23f;
  0x1b7f8bd676b29c93f860cc2a0e1b5973fd8ff3ae058a8a33fdf60845f8c21a83f;
  0x165af83b86b57a3bf9654264cf37164bfe01a3d25b6ed8d3f7bc7812ae4ecabbf;
  0x126988605140c96bf880cd0baed6099bfc7ceb8669301763f1019d171cd03673f;
  0x11d407059e83ba33f2f708900b2d9b8bf48e853520c98ae3f890cd0baed6099bf;
  0x1c5ceb8669301763f2019d171cd03673f0332d1305094b13f463b1c181e838f3f;
  0x1d642b5cb6bc692bf2f961bad619f9cbf5df81e63aa7b743f3813ab045af6603f;
  0x1932aad905920b93f965dd1f80e4d953fbc43dc6ec77c78bf9876b209b6c9a4bf;
  0x1f29db63cbc09993f31aa4694e628753f0b98ee9cdd205f3f52033b7efbd185bf;
  0x15b945b5c5047a6bf1ec64878bb8c463f752d50e73f5070bff5234016c59793bf;
  0x1a70bdaf6ec8f50bf9dd50c7759a5763fd71a36f019cc933f0cb08819314d533f;
  0x14e2130ef4f0f7bbfd158e661d1a09bbf5208ceb6877e513fad5ede5fa00777bf;
  0x1e211676c50ae8dbf84467de01790543f488337a63f787bbf14bb3912442c94bf;
  0x13e4fb75a92413f3fff841eee9be064bff15443cdd4a97ebf5e20b2a3e74c44bf;
  0x1a0847d79d9c16b3f78964a570144883f1fc64878bb8c463f752d50e73f5070bf;
  0x1f4234016c59793bfbdc7716044383f3f456368d3256269bfbf12b34d5d1997bf;
  0x11fc64878bb8c463f752d50e73f5070bff5234016c59793bf7088a0d296f8363f;
  0x1114f17cb2da45bbff0c6e49193603cbf3abe81071ce932bf5581a46d1b5e5f3f;
  0x1ce9f79ec15168e3f6d7ba4aab6bd423f14a1c27b248d66bf80c46108d92647bf;
  0x17eb8b50599f9363fd1de20f8019f60bf9883952e5cf683bf72c28aab54d250bf;
  0x145108eb29751693f1ac60d5145ddacbf0accfa236dbb373f60f796bdbe3d52bf;
  0x18a2cb1dde721933fdd4dfcca53aa403f1ed02369bec158bf450a362e33a69d3f;
  0x15e1b46408e083d3f5c2a264d7cd955bf9b0e4336cbe8983f5357f48bbdf029bf;
  0x1e89f9eeabef3403fdac0d146bb898ebf91e921fb9e7d45bf30eaba6c258b5f3f;
  0x1c1b63f5a55bba3bf265689731dd92a3f4fd9209118b443bf0da2cf5d93a6883f;
  0x1a6d5ede32020383f11fe760067eb51bf6f3b1a5cf575953f0bccfa236dbb373f;
  0x161f796bdbe3d52bf8c2cb1dde721933fba40347f91c93abf8795c9c89bab553f;
  0x19bb6e35ead1c92bf0accfa236dbb373f61f796bdbe3d52bf8b2cb1dde721933f;
  0x1d0bfd0b1d199f43e1847297a4c9020bfb69a01ae649063bf77a6489c64e930bf;
  0x16377ac441a134b3f2278d699eccb87bf50ac0bca1076fc3e50badf9033e226bf;
  0x1d2795d8f5d076bbf9ce0020dff371f3f6f7b2b09e0fe37bf317bb60e032b793f;
  0x1883d1d4b80715d3f35d8215f683fa13fee41c4e4d8538d3f091220f0b816513f;
  0x1d6279ecd50ba6a3f7ecf719e03d13cbf95943b60f05b543f85b23dc33f61603f;
  0x1dc49a0a77f3259bf3b28ead92a9237bf6af916a0889d7bbf8336fe886d7a67bf;
  0x13be272eece59673fd8f9431be8f4883f3c4ff0c0972d423f25884970f53274bf;
  0x17b09e8b695e588bfe88c98ce4f6b6f3fa57fe6bd005a813ff45304eb1763953f;
  0x11acc65e46ffd7abf253703b2a4d8853f335dd2278b93913f90798257ac098bbf;
  0x1091220f0b816513fd6279ecd50ba6a3f7acf719e03d13cbf6fa12858fa21943f;
  0x1264a6091861ea13f3f4a1c9549ed97bf091220f0b816513fd6279ecd50ba6a3f;
  0x17acf719e03d13cbfcc816680960f443f6983dcc133b39e3f2aa88980bb598e3f;
  0x148a04951fb5068bf22fdf3744c2690bff749575a254b62bf7eac9211ffb1123f;
  0x1236f9733359c6c3fe85dc317d4485c3fe8d0b514921672bf51120a137a4a8cbf;
  0x1b661cd3f72805e3f4239946f4b3f95bf9ceca07a18e8843f030336f8ef6c513f;
  0x1c82a8b01ee2760bfaec11d952e1f3f3f429b849e3008203f63e2cdbf00c3a4bf;
  0x173cf2fd491f9a83f233f5047c9a24b3fdb3c5be954c2913f657498b0727981bf;
  0x1533e7e322e214dbf86d316b152ccb13fdd86fd90c595b5bf9b566b01f53557bf;
  0x1e64d66dc4808c0bf7181f69a2e28a3bf4cf29bb8b8d6853f534b4308738980bf;
  0x112889d2685c263bff77f655faa86463fb6c4b969109f693f2b48662916d26ebf;
  0x1be24035b600d11bfc82a8b01ee2760bfaec11d952e1f3f3f429b849e3008203f;
  0x1e0e2a4a512a699bf2822c71ddcd74a3fe75d638b4c1c5d3fc92a8b01ee2760bf;
  0x1aec11d952e1f3f3f429b849e3008203ff298a3e3b6e5833f7910a5ff6288673f;
  0x1d0a042deda0f4bbff819d9c29f4491bf6cc4ed8229c74fbf0eca90c8a8aa543f;
  0x17726003e961fc0bf83b86ef2bc11a3bfceabb552d8ed853f84e27c6d0e078a3f;
  0x1c124e2cda21169bf26dff148ecd349bf8256d97ea216b0bf1db447cdaa25a9bf;
  0x11ec79c1ababb773f5e3fad5b2c41993f7ed32320ff7070bf986d734346bb60bf;
  0x130b82c05bcb8833fc0eb085f30358bbffd8dd8b2db5046bff8c167be7bad8f3f;
  0x1dc0c1571ccc1883fe4787824795d57bf6ad3143a29d4b33ff0c7cc31c47e7f3f;
  0x1f31a9e5690197bbf666e36e15a26b1bf4a2d6103a4f29f3f8f7888c0dae5753f;
  0x1e725160f0cafa8bf4293236dc4fd963f7aae60a084846f3fee8749bf28d59cbf;
  0x10bdd9a997de3a33f398b1a4f0c50603f5f3fad5b2c41993f80d32320ff7070bf;
  0x1986d734346bb60bf729a7498b982a0bf9cd915bf2189b03f5e69a8a2b60b613f;
  0x1603fad5b2c41993f7ed32320ff7070bf986d734346bb60bfb92f346e6851b4bf;
  0x1cebd1cdc35c5a7bfea28a9196f567d3fe286566eb5bea83fbc02883e416e823f;
  0x17c66942c971471bff74fb3748ecb9b3f2439333c4d42903fc2eb89a7281164bf;
  0x1330b587f354da03fa6193269bc3975bf76754e99a09965bff8c9b5f18b49b2bf;
  0x1f482eae4b6e3a6bf4e59d9ca1a2e993f2244a0a470a6a8bf62e2f1804db78a3f;
  0x1c0c2407016df773fc914cf23ea1eb63fac3a60f2396d9b3f1d38986f473385bf;
  0x1d6bfbdf49f65acbf7d77e7b28a8291bf30fd4525fec3753faa1296c514dcb5bf;
  0x19ae1724d5a08acbf2b4a8b0073749c3f2d12428e439d843fb9ceac2c71baabbf;
  0x1101df12787a1673f17a832e6e874b3bfdcc6614c186b793f687a1c7068c07c3f;
  0x117e41208d01fc33fc4002ef1ad30993f74b6f6af7a2596bf2444a0a470a6a8bf;
  0x15de2f1804db78a3fbfc2407016df773f64c74ed87725b13f44320445f6cea23f;
  0x1cc5c1d49aac093bf2644a0a470a6a8bf5ce2f1804db78a3fc2c2407016df773f;
  0x173ff84de93d0be3f2598a6c8f4e1a3bfa38b4e60c64b7a3ffb7c0c7dd780b73f;
  0x12e497a0d74eea0bfd618426a90ac72bf549eea5c0808b33fa1be3d021e01b0bf;
  0x11b5b4f17f5188a3fb6204faf6308853f33e9ffc550dd87bff0f4592ba9f14bbf;
  0x1e2858033fdf39a3fe2771204d80d913f155a8c8ad01693bf7719ee10ebe5783f;
  0x11adacd4582ff823fd0d135d0c45d61bf87bb860684c18d3f6e1e1686677e813f;
  0x190632271649c85bf246b9dc5db0974bfb3659ab0a65b69bf8ac35dbb4a626c3f;
  0x1c2268437c8407a3fe9f70a7d8918a13f576e6d6e3cc27d3f7c68c32b4dca9abf;
  0x1332147a13bb590bfd84715675512933f7f978c5a46d673bf09a6e80436be68bf;
  0x1ce82a808503e6c3f354a970bc1a28dbf8dbdf5c0516c81bf97e4680f0d86853f;
  0x17919ee10ebe5783f1adacd4582ff823fd0d135d0c45d61bfe74226d22c3b7b3f;
  0x164e30d1fce3ba13facf9e7beae427d3f7819ee10ebe5783f1adacd4582ff823f;
  0x1cfd135d0c45d61bf0e61c181811476bf3d98a5184240a0bf9c95947e900e7fbf;
  0x161465803c29b733f9ce46f840c4c893f3c37dac990ac373f0a7d63c16c2b763f;
  0x1afbcd5672051a03fc2093f1bcd2e7f3ffad26988b5caf9be98f5377615ae03bf;
  0x1525fa05a59fde13e8edcefa755529a3fd2bc13c153bd893f72b6c37bfae162bf;
  0x1d90371313a6391bf3256219b8de4683f926cc215a8dc553f5236eaa9fcd0a6bf;
  0x1a00184dd40aa543fd874239bd1996d3f2b11e13619a9b73fe51d2fcf2723a73f;
  0x109d4ef2245f980bf10ef169fe05a953fc4ec7b25d82b803fe0a812b27d035ebf;
  0x16250696ac76b8e3fbde66c0fd55e823f5cc5b954ba4956bf35349917d52fb43f;
  0x17fcf76c16e61a83fd2655fb070947dbffe1c2827e7d7b0bf40474cc0af825e3f;
  0x10cb4ebcf0eda753fd90371313a6391bf3456219b8de4683f926cc215a8dc553f;
  0x1e6bee5b02daa9bbf67a6d414434289bff1fa391024ba633fd40371313a6391bf;
  0x14056219b8de4683f8c6cc215a8dc553f9d912b089d5aafbf58aa278353cd9c3f;
  0x174605ffd218b723f2fb177b274f6acbf33b22e17ccd6b43f1fe6b16b52b86a3f;
  0x133027db3803ca5bfd426d3670682933f734b62c58e1e693fa8e73efa20ca7b3f;
  0x1b0197b246fe453bff6080156667841bf5e07f1c399d6993f7ccd2b07e8319f3f;
  0x1c62bd225d17364bf738ae0145bd7ae3fb089dbac561085bf7c1aa1d159eb73bf;
  0x1e6f667be1352abbf964c18479ef877bf1da3c7c99674723face3356467dda1bf;
  0x132164bf88991a5bf234e796a32486c3f0a8805e8d5f9aa3f927ff0dcca53913f;
  0x165d2b12362d372bf607bddc7292742bf1c7ce139d9a29a3f843a2728bc8333bf;
  0x1e03ade6ee2d6503fff7df3096cb5a8bfac7b469e3b1a423fedd74863d653b2bf;
  0x15655b5d4a01480bfc59d9c04cbc2783f748ae0145bd7ae3fac89dbac561085bf;
  0x17c1aa1d159eb73bfb8c3fd5990e4a6bf1752445bffc99bbf00fc813efaaa703f;
  0x1748ae0145bd7ae3fb089dbac561085bf7d1aa1d159eb73bfb847413323adabbf;
  0x103206b4c6687a63f94ad1d8173fc6f3f9b9ee0b52312a4bfdf53a8fd1900a9bf;
  0x16dd464d4d5ef6f3f91ad928fdfa0a4bf39c3e222b4caa03f7805040d39d7673f;
  0x185d5ac771e6492bf663e438d101f693f3bafe782a3c1573fe6b5170364ae75bf;
  0x1b6097d2f1a0aa2bfb3298557ae0c823ffc56c820e1dc55bfec207fdf4e2589bf;
  0x1482e20696501343f8e562729a2b96cbf72239714585b91bf36b9eb3c9157833f;
  0x126d93cd93dd3663f6d11cc7bc3fd923f123ba5787a0073bfba7819b9c45e713f;
  0x10fe79d1a4e97893f50836951485290bfa46cae5dcba2693f1c5c77d96697623f;
  0x10e07f371a20f90bf9d58ec2bf8694b3f6465fec27fe1433f1c45bd03ce2c71bf;
  0x19676fd738c2d5d3f1724a46962a1813fb65b6a6a9ea573bffd56c820e1dc55bf;
  0x1ec207fdf4e2589bf502e20696501343f346e23ef976559bf360049e668669cbf;
  0x1c7329ed7d1af7dbffd56c820e1dc55bfea207fdf4e2589bf582e20696501343f;
  0x1afbda7b1a99445bf588cd09da45b7e3f1fc0f45ca0c17f3ff2a5b8ec10b345bf;
  0x1e47a5a098e3f8dbf10df956c6b4e72bf9b5988daed3e553f688f6e310ae38dbf;
  0x1106a42c777438fbf0286839c7ff14f3f431eb47db75e823f605f7f4ec73a2dbf;
  0x1a68e8af87a6441bf8cf5063d38bd943f9aafb9efcf6584bf2425bb604fdc223f;
  0x1af9db58436e966bf50d67528a9c13fbf258b3269501d403fcca6cc39243b8cbf;
  0x1cace88606b5d6b3fbef983451972033f00ca9509fa2f57bfe4e89a3240ce463f;
  0x12c3aeeb0369e533f19962d5cbc5590bf93065fcd52fb89bf4fa892e086d555bf;
  0x1d3f1ecae7602a13fb2acd010e51071bffe79d75d7491203f0f99cffc85d069bf;
  0x19dfa31be6ce6393f931510f7b4df453fd24d2fd7102993bf891aeb369592723f;
  0x12425bb604fdc223fb09db58436e966bf4ed67528a9c13fbf0f444c7cacc036bf;
  0x1862e64e1f71f6abf6a5946fbdf738a3f2425bb604fdc223faf9db58436e966bf;
  0x154d67528a9c13fbfc9616958d5de4f3f6059b301375d82bfb2764efe18c48ebf;
  0x11360d0788ec225bf95e3fddf63dd633fb4dcbba87ab0583f022c708ea07a473f;
  0x1ab91576ec90e7bbf270a46d255aa86bf20f7ec18dc6907bf206809f011714c3f;
  0x12ed703a713b6233f8c1e3e72d8369dbfbee2eed3b29f97bfc6563c934d22a2bf;
  0x15f98522a5fffa43fdcf52b2985c384bfd6c287c944f687bfc1ac7ffc31f5733f;
  0x110800d408177723f64f7bad128809fbf2b32f8650bc0933fe22bae465a5f973f;
  0x1b293324d32507c3f72ca12fbbbd0b73fdb3677d45030b13f97c89ba7c309893f;
  0x1f0d86ff9052fb2bf13c374e836d8a1bf83dbabd2680b893f084c7d30ea87abbf;
  0x19fc347ce0cab9e3f6cf7c451d7845e3f942aeef010de673f140ea34823f0b13f;
  0x13d370393f69d653f5f98522a5fffa43fdcf52b2985c384bfd8c287c944f687bf;
  0x1d295c4ce655f8f3f844c657ff8bcb93f6c91681219e2acbf5f98522a5fffa43f;
  0x1d9f52b2985c384bfd6c287c944f687bf433fde8dd6dda3bf80d0329d896262bf;
  0x11868c05dba2d9a3f8f5958bdff2eae3f01d76a20c707803f6ab61547c43092bf;
  0x1975513b7302b9f3f661f30abf387a43f0bc5c06ff2849dbf8fb2bcf1f7b3a23f;
  0x1e75e661eca2e6dbfd455c178fcae643f40984c5a15d445bf1e32842c5f35733f;
  0x1b9efa6f5ffafac3f8f1495d736cb12bf917fb40dda43423f7482350b65b37f3f;
  0x12954642d07e041bf8eee9a5858bb6d3fc9b56c517cfda33ff3ee86b1eb2b283f;
  0x15cc4339f364555bfd61f003252c48fbf12b3abb9fc1f473f83a43fef202272bf;
  0x14b641c793768a5bf029621da1ef63f3ff4da25fa506166bfde9013f97cb692bf;
  0x1f0e55cd77c5a103f7ac00a19f5e636bf0e2243f63a2663bfc656c7cdd584303f;
  0x1cfb9d639db795bbff1ae0113367992bf8e1495d736cb12bf917fb40dda43423f;
  0x17482350b65b37f3fcc58bed9b6121ebf1c6e3f5d06a3563ffcad151111f29c3f;
  0x18f1495d736cb12bf937fb40dda43423f7482350b65b37f3facd59338b91b1ebf;
  0x1a1c27bd5dc6d3a3f9b6895ab688a6cbfdccf40543e08f4be79a45cec48fe333f;
  0x1b0d6a0314c3e7d3fac256ad1444a303f5a56b64759994cbf5620ea4746e27e3f;
  0x1f1f7b08b5afd0f3f7e28e2b1f2163fbf53576f74c3fa7abf88f46c8be6056dbf;
  0x1a0e161a57a6182bf0b68394420aa6d3f80f1afb45ae164bf960ede014ad182bf;
  0x1f3ed3e920cc9513fb0f4fa860d420cbfba8c9fb835e78bbf8e58f21f69837ebf;
  0x1f7547bc09f0c8ebf7a02d4bfdd07a3bff67fd514a8b68e3f396d379fbf2a84bf;
  0x1cb2a2eefec0e89bff7effb673d8c913fda93d451e8a7493fd5a4bdc3ddb59a3f;
  0x111769a6fe6d2893f780268153c57413ff9aea902b30d923f95cb1d184b74813f;
  0x1882372017e72e2be361f2f49303762bf63cee54966eb53bf81f1afb45ae164bf;
  0x1960ede014ad182bff5ed3e920cc9513f5430abc58fe760bfcfef85f0770287bf;
  0x17c19b694843554bf81f1afb45ae164bf970ede014ad182bff3ed3e920cc9513f;
  0x1fccfe4bc947c58bfd7690903d8115abf39ad5ee8ac84663f4ed03f98b5395a3f;
  0x1cae72d84d87f983f9f8aefae924a833fbbcb59d932c182bf8e5d806a98f783bf;
  0x1403915fa3f3f913f1dd5d18113227fbff8d92841b70e9cbfbe686ff9b9846a3f;
  0x1d3b01720fba37abfbb3dd4e2fb1499bfe5c4080949077d3fa0d21fa4016a633f;
  0x101eb92446bea873ffe589ae55e0050bff37a4fd1fde8743fce0b8abba387853f;
  0x1a4bbad9cfacc85bf2bf730159cef7f3fb671f1834d119e3fec50ce62366681bf;
  0x177b9c58dd3e083bf0c73e9f44b0197bf4fa2acbb9c3e933fe564cab7a41759bf;
  0x167128b33013e923f9143f246fa968f3f524f877998eb413f93b8e001630e7abf;
  0x198aede36818f76bfa9c568e220ea583f3f3b2ca928a7693fb814a1f6c6f969bf;
  0x1a0d21fa4016a633f01eb92446bea873ffc589ae55e0050bf787a0b60dcdb69bf;
  0x18131f0fbc8a997bf7843d6b24f7169bfa0d21fa4016a633f01eb92446bea873f;
  0x1fc589ae55e0050bf76fd4052eb6147bf9501fdf1878a703f1e2de0a11041733f;
  0x1b1047cffb03061bf193d8092d24b95bf0a8ef901507175bf2bc5cb21d29f63bf;
  0x132821713dbc38b3f765bd2ddd428903f400d000629b26d3fedcf3422734a923f;
  0x178e67b1dd77958bffc6eb5779a97a03f4a68853f6f3ba93ffd844b2dc75f64bf;
  0x1f8524f770d14a5bf92f2baa8c4fc713f7adfb544f760703fbf12ee67ff2772bf;
  0x1a251b9e0abb08d3fddf234604add433f3339de73f33e8bbfa604404c7db794bf;
  0x1500ca41164ba503f3b48303d6961b3bf918b1139c19a90bfa61a8e246bdf7c3f;
  0x182c32cdbb967b03f46448f629fdf9fbfe0a38e9cc7bd7abf6748d367673ead3f;
  0x1a90fa30fa5689cbfba756ff69ed577bf40d238efb1b5833f4a1dc322811da0bf;
  0x1026ce370679055bff8524f770d14a5bf92f2baa8c4fc713f7adfb544f760703f;
  0x180c64af464617d3f8ef9325ed064abbfa88bc6fcf33c56bff8524f770d14a5bf;
  0x18ef2baa8c4fc713f7adfb544f760703fee5e01764774a53ffa4b264baab6a83f;
  0x1dffc96951cee6bbf52fb4877dfa2aebf089276f84d1093bfa914d6f0e585763f;
  0x18ef85ee461c393bf214154bb00c496bf546f14c48bba593f5a6b65221207a2bf;
  0x1102c8c0d9fc46e3fd078d8fa37046c3f4622f55a0033813f3db5d4d1a9a1a23f;
  0x1f5d7f0358c488cbfd6bfc04e0aa53b3f4aaeb5b8e386663fa8b39e1be8fe23bf;
  0x170890c9a6d2574bfbf0088cdf1ee93bfc2d3b8f7a0c8823f2be9565225ab403f;
  0x1e4f0c18b7e0e623fbebc549323694bbf6ea6c9df73e5593fe915bf11879587bf;
  0x11c49acfa29658bbf9c58c60f8e1c7d3ff7faff78ed19993fc2f4d9bb187d8fbf;
  0x14ff9a55286bc373fca2679da7377543f7a7522beb4ac49bfd2a662ae0cf370bf;
  0x1fd30041d36c590bf664f8dee319b7f3fd7bfc04e0aa53b3f4aaeb5b8e386663f;
  0x1a4b39e1be8fe23bff33c643592d6513f42156c6dcf109a3f0479f040bc41853f;
  0x1d5bfc04e0aa53b3f4aaeb5b8e386663fa4b39e1be8fe23bf8dc214d5fb9c223f;
  0x10c8888358bd991bf469472441a2b86bfc5626f4119322fbfe8e274a3703a67bf;
  0x1fd47ed35a9de45bf442e3663b21f263f506fa138653795bfc159eca278598abf;
  0x10eb20fa48833133ff675157a124b3f3f30742453edc6fbbe77101666069859bf;
  0x1279b30f20e51a1bf0b67f91d78c48ebf2feca6bfb209ecbe7e6313effcf409bf;
  0x1227cd05f63e4d73e22160b1acb3dfcbe2be34ac1fecc0dbf3ea0dcadec99023f;
  0x1fdfb487916132a3faea80d6752a4713fa389038368585f3f0808dbaa09b10dbf;
  0x1c0d5d4e6f99c32bf745d402c444bf2beabe83aa0826f1a3f9ae6349db89a333f;
  0x1785b1678862916bf5ba015a576d973bf6a3833d4ba708dbf032f873b08a4703f;
  0x15f007eff7dd084bfa3046418b6f695bfda54fdfe406b8b3f2feca6bfb209ecbe;
  0x17e6313effcf409bf227cd05f63e4d73ea6ac3a0cf5ae92bfd7101e101e3da4bf;
  0x11ccbb5729406983f2eeca6bfb209ecbe7e6313effcf409bf227cd05f63e4d73e;
  0x12603f00aed244ebf5527610e5a19a0bf68e4cab1ec538fbffc604bc607da5a3f;
  0x1434ba1ce72df843f6540e0127b5b5a3fc41c6f423b73c4be3cf96d78ecd715bf;
  0x163ace3d8c94005bf3ae8df580faa643f6006dd037221833f32998c35dc9b51bf;
  0x1eedc1d1f9d15a9bf3f7f09ccee0eb03f83c8317cdf5da53fa1aff87b77d3a2bf;
  0x17b448f4840828c3f5ea3e4d271d084bf2b8ea0ccd9d28a3fdf99ae3bf91494bf;
  0x1725ba7fa43e09bbf575258c04bf7a8bf63a3900302849e3fdc4470dee2068cbf;
  0x1ae94432d5387c5bf0f5b57f87684ab3ffcce06d26f7f973fb84ba60c7ccac43f;
  0x1f4fab62b3f62833f2b1d3c942f6f903f549bc6b8bf009e3fb11a0bedcc1d96bf;
  0x16de17387baaf87bf18154fadf464a23f9cb26a9f866fb1bf82167faaf7cb81bf;
  0x1a1aff87b77d3a2bf7b448f4840828c3f60a3e4d271d084bf26834cc2a6d1b8bf;
  0x158fd90e32833b6bf95495ddc5ff8ac3fa2aff87b77d3a2bf7c448f4840828c3f;
  0x15ea3e4d271d084bf9984057beb34bc3ff9715aef131ea03f0e09a423969e9ebf;
  0x115ccbc6957d3883f0616ee3f60578f3fc598f6a03304743fda0c1afd2454913f;
  0x15155411ba0f19d3fb26b9df180b380bf02d05dced5fba3bf0bdf4d78e7509a3f;
  0x1d68df15ba15c51bf7169ec7f5201db3e0e73c5430aacf8be3174a2d77cb4173f;
  0x1e6eb532cc74c9c3ee7556dd7dbdab9be68662de76cd7d83e474f11caead1113f;
  0x1d9807079c94730bfe297a910e2484f3f98dc145ee24cf0be9569ec9cbac80d3f;
  0x1bf47eb29e29d2cbf4e523d0e14161fbf0166a4cd88663c3f9ab474ad95495bbf;
  0x118481bffaf8a68be9e8a43ef0e6f863e2ce98ef8cac4a5bebce7c4aa55b429be;
  0x1242d6ce0237f473e7c2c50e6cecc66be95d16ac6e6ebbebe506f4c5d0040dc3e;
  0x180570ce68f24fbbee5eb532cc74c9c3ee6556dd7dbdab9be67662de76cd7d83e;
  0x1fbd65ed77f07cb3eba152278aeb1e8bea521bf84dfb9073fe4eb532cc74c9c3e;
  0x1e5556dd7dbdab9be66662de76cd7d83eab91f551fee2593e6bda2abf9ea677be;
  0x15a6830c346bc963e8259b270bdb9d23e4350df1b941bf1be2537b842e26f103f;
  0x1d4f388903ed6adbe5c8d0a828742cb3e33f1a7006d34eabe6f8667bb144ce0be;
  0x1d062aeaa42c7fd3eb9e2fc5c759c1cbf814999cb6d30683f4a8f3b5ebc9191bf;
  0x13df3ecbcda8769bf860fe9e41d16563f704ed02c5f5580bfbf3e88a9e8a775bf;
  0x19497d9af1f8355bf0c862d1c63ac7e3f10f4aff353f263bfe2d7a0df269b603f;
  0x1e58a058b761f88bf3aa46a8eea8661bfc86810172940543f47fea97d41f87bbf;
  0x1a29fc65de5f9803f5b493a9603c35d3febfb0489c40485bf196744ce65a0783f;
  0x1b0c378fb4f544a3f9af6780a349872bf0f6172984fc9653f727f432bc4b84bbf;
  0x1b28ab4527fc3733fe6591aa847b459bf860fe9e41d16563f704ed02c5f5580bf;
  0x1bf3e88a9e8a775bfbbf2f4757027503fcaba0e82772b79bff82a6a622e4189bf;
  0x1870fe9e41d16563f714ed02c5f5580bfbf3e88a9e8a775bf4d56a58ee06e403f;
  0x1cde7ae0257c065bf9520b322179d7a3f7202a60b79b946bf3d997a9e56d1713f;
  0x11a4f15c0e24f833f4e2dcbd71c81493f0203e6c80ee170bfe39d036dfda6843f;
  0x1ef4d85c1250c443f311f920bb9a66dbfa6826e131da863bf5e64a2f157b955bf;
  0x1a49a7fa13e36723f8eb94f784010abbf6351debcd7ed3e3f895ce847ff165abf;
  0x12ca732f2e3a2923fd0ccde2276b8453ff2776266c62262bf95178c0885a19b3f;
  0x1bd45bc4d3e49443fa66bf5aea70161bfaf13cf62ad45993ff8ca9f68c27037bf;
  0x136ae8110b020533fc3bcbe7124a590bf403c3bd152b94bbf3d49b2024510673f;
  0x1ba6765842ef7a1bf6859e0257a27323fbc3f44037b344ebf8de3e04a4887873f;
  0x1e3682ef361763e3faccafcc05a6f59bf04f1e2723360933f6351debcd7ed3e3f;
  0x1895ce847ff165abf2da732f2e3a2923fec0b02efa4933fbf0403457caf165b3f;
  0x1615bb575394291bf6051debcd7ed3e3f895ce847ff165abf2ca732f2e3a2923f;
  0x142e89b8f477404bf2844c994bd441b3fe43c5147ac776abfc4c16b34415834bf;
  0x19d2a742fce67513f2e367b96779c86bf4484720f392b0dbf4863b3cd7571233f;
  0x1c00f1cc83ddf72bf14329875026b263f6fb748dc11e942bfd843bd7a12047b3f;
  0x14285ee70db6b46bf054b0e1640d7973f06182eb9213f913f661af36f11c42c3f;
  0x15c22dfd49900603fc09109f7a1450cbf3c4d453ee345303fc8bf5d09e5df523f;
  0x1f2f16c678bae45bf06bdeaf1ba31263f8754a27f719977bff3a5048f6b1271bf;
  0x1df811fc118603a3f14def777dc2d763f2e469a3fd9d94e3f7c26ab7194584ebf;
  0x1a828798e8f417abfb6cbaeb115c6543fbc96c345e7166e3f04222e66bc089a3f;
  0x1185f8403209974bfe0f07676ed4c703fd0cc37610fe8923f6f7b15a5ecb785bf;
  0x1641af36f11c42c3f5c22dfd49900603fa09109f7a1450cbfe401ad3d6d927f3f;
  0x134de8d418d16a43f8e56f5a0890393bf631af36f11c42c3f5b22dfd49900603f;
  0x1a09109f7a1450cbfa10ddabdbe9058bf2a0ef5716069903f5ecd0632a273913f;
  0x15000eb31097047bf0cdb4f1d3f3a8ebf0e0c0784decb72bf387126bc228618bf;
  0x1fe9d5cf04962503f1f067bb2186c513fedeaa496cbb35cbf28b716c618ef8fbf;
  0x138c9fda3a3353c3f3c754e39c550a73f66ed4631187a92bfaa88b7c8a61c71bf;
  0x1968fb7ed2aaf8a3f72bc8c41a2f85bbf0633b9d6c76b53bf7e8d79f6c2dba1bf;
  0x1e01f5d696141a43f8e68c7106ad26a3fe3b76cfd90b8a73f90c6579f59cc92bf;
  0x1c2c16190d46871bf764c65836929af3f58cc6381878eb1bfd1a22d59596577bf;
  0x1e0ea7b1180c8b4bfe69e97fc8295a9bf85380d5749897d3ff18c836aa2da90bf;
  0x105be469f4bbf84bfa6e92615caf3573f183d262528787cbf2994742e2f25803f;
  0x1e1b3d10e1c61453f968fb7ed2aaf8a3f6ebc8c41a2f85bbf0633b9d6c76b53bf;
  0x12fd9c8df8b63a93fd0eb4c5fb7da763fe59c4ca1e45572bf988fb7ed2aaf8a3f;
  0x170bc8c41a2f85bbf0833b9d6c76b53bf14ee319b6a7990bf5c202375a96a84bf;
  0x1958bdf7bd168573f95c865a2e284a4bf7f9b467b704d82bf88f0c3165b886d3f;
  0x1ab7f1b4c0eabb4bffcfdd8503a9da9bfec273b3c6d5e7d3f2f3f5719f112a03f;
  0x11ecf689f67d970bf2d7cab15c76567bff00e2abd3287643f4f6040ae4547acbf;
  0x1d9821ac00c61583fb07a2cd49b38963f2fc0d21189d472bf9e0a5a6cf0d558bf;
  0x17550c6d89da5963f5fd2fabb68c19abf41fc31dad0424dbf0021c675612238bf;
  0x1036a85b37f9f803f901e16ce6aa92cbf1a512323c72dbb3fa8ad1c6448008e3f;
  0x17b000b503a8081bff9484e835fcfb4bfd463cb594cd5ab3f163bd5662fa2723f;
  0x1681d066c3a0492bfa0307feacc18883f368c3b46d621503f8fede43259ada0bf;
  0x160c44aaee2b3a33f9b30bf2e378c553fb07a2cd49b38963f2fc0d21189d472bf;
  0x19e0a5a6cf0d558bfe88b49a5f30aa43f64b0f128b2c2a73f4f1028e1240372bf;
  0x1b07a2cd49b38963f30c0d21189d472bf9d0a5a6cf0d558bf55f1f8789dd2b7bf;
  0x137cfd7c4b3e9a1bf7cbeabbbffb7803f1757d40a9b619e3feaf82936e08c683f;
  0x1602f2109314a63bf4ba615aed82cb03f6de6cc993653983f1fea096114b476bf;
  0x1e4042fe6b0a3813f6d1ae7db34e55dbf0950fe9f03b743bf]%N.
Definition file_174 : list N := [0x1934e554d5059010076007b276465736372273a205b282773616d706c65272c20;
  0x1273c693427292c202827737472756374757265272c20273c693427292c202827;
  0x161746f6d272c20273c693427295d2c2027666f727472616e5f6f72646572273a;
  0x12046616c73652c20277368617065273a202835392c292c207d2020202020200a;
  0x10000000000000000010000000000000000000000040000000000000000000000;
  0x10500000000000000000000000600000000000000000000000700000000000000;
  0x10000000009000000010000000000000002000000010000000000000004000000;
  0x10100000000000000050000000100000000000000060000000100000000000000;
  0x10700000001000000000000000800000001000000000000000900000002000000;
  0x10000000003000000020000000000000005000000020000000000000006000000;
  0x10200000000000000070000000200000000000000080000000200000000000000;
  0x10900000003000000010000000100000003000000010000000400000003000000;
  0x10100000005000000030000000100000006000000030000000100000007000000;
  0x10300000001000000080000000300000001000000090000000400000001000000;
  0x10200000004000000010000000400000004000000010000000500000004000000;
  0x10100000006000000040000000100000007000000040000000100000008000000;
  0x10400000001000000090000000500000001000000030000000500000001000000;
  0x10500000005000000010000000600000005000000010000000700000005000000;
  0x10100000008000000050000000100000009000000060000000200000001000000;
  0x10600000002000000040000000600000002000000050000000600000002000000;
  0x10600000006000000020000000700000006000000020000000900000007000000;
  0x10200000002000000070000000200000004000000070000000200000005000000;
  0x10700000002000000060000000700000002000000070000000700000002000000;
  0x10800000007000000020000000900000008000000020000000300000008000000;
  0x10200000004000000080000000200000005000000080000000200000006000000;
  0x10800000002000000070000000800000002000000080000000800000002000000;
  0x109000000]%N.
Definition file_175 : list N := [0x1934e554d5059010076007b276465736372273a205b28276772616469656e745f;
  0x1646972656374696f6e272c20273c693427295d2c2027666f727472616e5f6f72;
  0x1646572273a2046616c73652c20277368617065273a2028332c292c207d202020;
  0x1202020202020202020202020202020202020202020202020202020202020200a;
  0x1000000000100000002000000]%N.
Definition file_176 : list N := [0x1934e554d5059010076007b276465736372273a205b282773706865726963616c;
  0x15f6861726d6f6e6963735f6d272c20273c693427295d2c2027666f727472616e;
  0x15f6f72646572273a2046616c73652c20277368617065273a2028352c292c207d;
  0x1202020202020202020202020202020202020202020202020202020202020200a;
  0x1feffffffffffffff000000000100000002000000]%N.
Definition file_177 : list N := [0x1934e554d5059010076007b276465736372273a20273c6638272c2027666f7274;
  0x172616e5f6f72646572273a2046616c73652c20277368617065273a2028392c20;
  0x1352c2033292c207d202020202020202020202020202020202020202020202020;
  0x1202020202020202020202020202020202020202020202020202020202020200a;
  0x1d7b7ee257af546bf0923609bc0c6913ff0e6da61602d933feeb2117c08cbd1be;
  0x1fea5f0cb143f22bf4b3927c9d5ad21bf42f7804aebd990bf231a0cb6359ba3bf;
  0x1b106daba97678bbffb8b4f8298ed55bf104579b578df62bff0aac08d1c5731bf;
  0x1cffcefce3ce49d3fea35f938bdb5ad3f90944fdf47028c3f1ca1df4eec8da43f;
  0x1bf75b5dbe72aa33ff723f88e5f8e67bf41b497bbbbe44e3f4ae0c72b0a424c3f;
  0x13f6ac0a0593a12bfacf82a8041a7a5bf12d9c0291d5ca9bf06c1183808ee5d3f;
  0x1a3dec5086cf347bff003bf76d47358bf8514b5c0b73307bf345556b2cc628a3f;
  0x1adaded9813c89e3fb8ed3ede411b543f08cc5e26f092a33ffc68a446701bab3f;
  0x1f1627875e03b903fff3c254259a64f3f49f8db070110493fe97f0f91ddcb2abf;
  0x1e0a9e2c31d8a98bf903b04de95caa1bf94ac3a47daba87bf82a336ac391f453f;
  0x1016f45e7e598363f4e2530280e6834bff58251208da892bf5068ecb1530b70bf;
  0x1413ff94c2ea38e3f3c454043815a743f1c97880c4a09993f494ce74a3c82933f;
  0x1a1284879284a303fc061417b8535363f407c8dd42aa7cbbe5dfd30165b9692bf;
  0x13cedd0a3d7f5a2bf2eeb7b27f2b78abf1257cba4a037653fa714219f51b56c3f;
  0x183883625c99510bf99e064348332a03f26e647558e41ac3f233d7c8816d9893f;
  0x1591e7d0b4d4aaa3f000da752d9eca63f3fc714d911136fbf1b1a1cf9b39068bf;
  0x1cd2dd19ca4a862bfe4be6ef9faae303f7e3ff5be6580a7bf40aae9e00e41a8bf;
  0x1d822595596e1653fa0c3690d7a9c183f26f71f22ef67583fe77f76d5bd2c213f;
  0x1d4522e291819953ff37eaa7db998a13f787f576c5165163f146153c3ac5da63f;
  0x1929711a1c7b4aa3f82edfc7c41f28f3fbdd955c8f99a6abfffc93a1d7d6365bf;
  0x196bf010bb758313f504cc8dae8779abfabcf801fffcaa0bf1e475f5b7f5b87bf;
  0x115dfede2aa7464bf9ebf8a508f6a60bf0406bc8504302b3fa285170762788abf;
  0x1782f3785b131593f6850c221d59e8d3f15112e2be6575bbfd403c286a02c923f;
  0x16b313056b11c943f8c83d6a20465edbef8615d4d5ce328bfa397ac9004a224bf;
  0x1b1dc9a4610c08cbf0a218b9ff2f8a3bf3716c1fd6b6f8cbf6b86de7af20e713f;
  0x190a07ffa55457d3fea5dc0ba0fd317bfe42c9ecef0049a3fbc05b910fc92ad3f;
  0x10f617c9de9728a3f11fbdef7304a9f3f8e1ff2f4779ba03fe82b182e24a75ebf;
  0x141325331a5267dbfba0409f7403b7fbf9ec04ebde1e23b3f36acbbeb1ceca2bf;
  0x13829bb5f56b6a9bfc91219ebdf8f453f784fe5663a4b453fb4793a5dbd086e3f;
  0x114c21e82b6e1393f802691d19097643f0517e2cb3aff953f6609448f783f653f;
  0x1557e131a23399e3f949254f29944aa3f33c612f99139923f9a191b2158017dbf;
  0x1a47d437881a57fbf68f46167edb6313f7d6c3b66529a95bf19fbf04e3659a2bf;
  0x16a6056b5415c88bfbf73b81d677b6cbf5e0d8e71335b70bf06354ceb0c1a11bf;
  0x1083ba76ca81a99bf5697404fd07b8dbf9358c9934afa8a3f]%N.
Definition file_178 : list N := [0x1934e554d5059010076007b276465736372273a205b2827737472756374757265;
  0x1272c20273c693427292c20282763656e746572272c20273c693427295d2c2027;
  0x1666f727472616e5f6f72646572273a2046616c73652c20277368617065273a20;
  0x128392c292c207d2020202020202020202020202020202020202020202020200a;
  0x10000000001000000000000000200000000000000030000000100000001000000;
  0x10100000002000000010000000300000002000000010000000200000002000000;
  0x10200000003000000]%N.
Definition file_179 : list N := [0x1934e554d5059010076007b276465736372273a205b282773706865726963616c;
  0x15f6861726d6f6e6963735f6d272c20273c693427295d2c2027666f727472616e;
  0x15f6f72646572273a2046616c73652c20277368617065273a2028352c292c207d;
  0x1202020202020202020202020202020202020202020202020202020202020200a;
  0x1feffffffffffffff000000000100000002000000]%N.
Definition file_180 : list N := [0x1934e554d5059010076007b276465736372273a205b28276e272c20273c693427;
  0x1295d2c2027666f727472616e5f6f72646572273a2046616c73652c2027736861;
  0x17065273a2028332c292c207d2020202020202020202020202020202020202020;
  0x1202020202020202020202020202020202020202020202020202020202020200a;
  0x1000000000100000002000000]%N.
Definition file_181 : list N := [0x1934e554d5059010076007b276465736372273a20273c6638272c2027666f7274;
  0x172616e5f6f72646572273a2046616c73652c20277368617065273a202832372c;
  0x120332c20352c2033292c207d2020202020202020202020202020202020202020;
  0x1202020202020202020202020202020202020202020202020202020202020200a;
  0x1bfc0ae8ccaa865bf6f98041c2a6ba2bfca0abb7787fb753fcaf6a860e57f0b3f;
  0x1aa3d0728b97c353f4c2b79ed367aef3ea4ffed7045d4a53f73c3c71a1069813f;
  0x104091c4dc60094bf31e5838a361e713f4d445964c5024a3f5979efb5f61851bf;
  0x17ec53c861ce7b2bf1032d1569c527d3fb8d4ea35243aa23fca255bc569e3a33f;
  0x136d27267d588ab3fde4439832f2a8e3f3dbb94cf16454dbfda9b236494b055bf;
  0x1e5cb8bc66dad1bbf36fceb50fd2c4b3fa362dcdf2621873f4b9b29b63d676ebf;
  0x1ccf6a860e57f0b3fab3d0728b97c353f332b79ed367aef3e0426e29267cc50bf;
  0x19d4cfc5f42f698bfd5d6767a595483bfcdf6a860e57f0b3fab3d0728b97c353f;
  0x13b2b79ed367aef3eea940845fce127bf9a4c85b0984f803f0ff3ce32df27813f;
  0x10e83141f3e7364bfeef4e60bc3c463bf2ac308f809a3203f85b1e72c5ce4a33f;
  0x1e37c70f98f5eb33f53324413efe3903f977c7664d9c6643f001f288bfb58513f;
  0x134790db33fbc3ebfb908bd4dc08d5e3f38772d4e84b5203fc8c11520aa8b3cbf;
  0x1225baf2834c40abff9aeefa8df8cf1be3429632dad92e43e5233d8c4d26aa5bf;
  0x1ed9300fbcebe8c3ff512cc4d4b88893ffac448af9d1271bf90eb7a815bac32bf;
  0x147019b50b6e64f3f73ca32de3e92b23f876c004a12dd98bf5fd410af312196bf;
  0x1906402796f87a4bf994a4c84c356afbf459295b28952013f130eb9b2b2904d3f;
  0x1f3cfc2010e91563fb4ff663178f2a8bed9f9c89095993bbfe6e530988f85223f;
  0x15db093639573203f235baf2834c40abffaaeefa8df8cf1be3529632dad92e43e;
  0x14e3515578c33593ff09d49c1b030503fbc9f43b5e39d2cbf245baf2834c40abf;
  0x1fcaeefa8df8cf1be3529632dad92e43eb37fe29223653abf8f01a378d82e44bf;
  0x101d0769fc2f2843ece00c4c14085643f025e16b951f5603ff74f95f6257b32bf;
  0x1cd00d30b797ba4bf4493b886d752afbf046f36e37241f03ebbe69f05b4c464bf;
  0x1d68a21e2243c4bbf065ba7eef2ec3f3f8af14097a987493ff86ab697745aa23f;
  0x1adaeb9d5cc3274bf0c7533ff2676b7beba42782deb6334bf402a6e0d7206fabe;
  0x199147305ab5c4abfb02be48aef1397bf25fed79882f27c3f806e4076b631e7be;
  0x185ce9ba397ac40bf538b1fdab859123fd5c27e026a37553f03204c346b88913f;
  0x124aa89792da68cbfcfd8e774b680543f16c3cbe6706f7e3f70daeb0c823b8ebf;
  0x18fb514c9f8e6e2be1a83e6b3330f0cbfe499eeb652df1b3f93fe0e1165c03abf;
  0x13b263d1e3d6b87bf4560f05f04606d3f187533ff2676b7bebb42782deb6334bf;
  0x1342a6e0d7206fabe941e668849ce40bfbeb2e75337f3973f54e54b09d1c6833f;
  0x1147533ff2676b7bebb42782deb6334bf382a6e0d7206fabe1465b3da102b433f;
  0x10339f65156197ebf86929125f42781bf1ac07dafa202e2be5db784968a7b363f;
  0x1c4dc21f54153243f0fe969dd9be3523f0b9aa1b021a98dbfeffffc6fffe790bf;
  0x1c8e3aeb4f62ab1bea8ccbad048d72dbf1a1d9eb9330bf3beb908bd4dc08d5ebf;
  0x138772d4e84b520bfc8c11520aa8b3c3f225baf2834c40a3ff9aeefa8df8cf13e;
  0x13429632dad92e4be5233d8c4d26aa53fed9300fbcebe8cbff512cc4d4b8889bf;
  0x1fac448af9d12713f90eb7a815bac323f47019b50b6e64fbf73ca32de3e92b2bf;
  0x1876c004a12dd983f5fd410af3121963f906402796f87a43f994a4c84c356af3f;
  0x1459295b2895201bf130eb9b2b2904dbff3cfc2010e9156bfb4ff663178f2a83e;
  0x1d9f9c89095993b3fe6e530988f8522bf5db09363957320bf235baf2834c40a3f;
  0x1faaeefa8df8cf13e3529632dad92e4be4e3515578c3359bff09d49c1b03050bf;
  0x1bc9f43b5e39d2c3f245baf2834c40a3ffcaeefa8df8cf13e3529632dad92e4be;
  0x1b37fe29223653a3f8f01a378d82e443f01d0769fc2f284bece00c4c1408564bf;
  0x1025e16b951f560bff74f95f6257b323fcd00d30b797ba43f4493b886d752af3f;
  0x1046f36e37241f0bebbe69f05b4c4643fd68a21e2243c4b3f065ba7eef2ec3fbf;
  0x190f6303ee38a92bf0db3f84fd439a73f00bb4c382db7773f452c996feb245ebf;
  0x19ff08d9df3ca20bf4910b66701bc303fe106d6579c0890bf98c35099781b5fbf;
  0x12f2d731301f57e3fc63c3b6c375e72bf5855571a1c443c3f28b6e64bcb90513f;
  0x1167da40dbcf0c13fceb6f22b0933853fa3a7c793624c9dbfdc9a6b8e8624bebf;
  0x1e6d33afb033da2bf2f24e76bed908a3fe5162da254fc4fbf6922ad65995a603f;
  0x1db4639cdba76343ff2dae6280242a43fb7b55bc9d6c898bf69ddba25f6347ebf;
  0x1452c996feb245ebf97f08d9df3ca20bf4810b66701bc303f913d0975c86e69bf;
  0x192460b717e70a7bf981d825fd01b69bf462c996feb245ebf98f08d9df3ca20bf;
  0x14810b66701bc303f4f4f4c03e967ab3f2506de0f8833a93f433e0672cc0c70bf;
  0x1502461549aea723fbcd545b663ff683f5bcf1cc79da840bf8017a1f67a4673bf;
  0x1a2e9b78f953e9dbf1e401ad959e264bfd233ebaf59bd5cbf7c6fc4c42ba449bf;
  0x1e2c8303139e6383f1cc70c43bf73943f9685aacb1e29a7bf1c174edae77f79bf;
  0x16cb153cec94e5d3f80f5df50af321d3ffff64afe6b1730bfc35fda3109cd9abf;
  0x1305615071f51903fbbf82488951b743fbd7c27cf9bb9343f7420e9cd3b7847bf;
  0x14258933902d719bfb92f163d394fb1bff7e3fc6f4bbba1bf104ddb92c3ac7c3f;
  0x19468ead1cee0b33f67ed22127f339abf9d8e34e29a7f8abf7c1273aa83c65e3f;
  0x1bde92e93494844bf5bfa5109348334bfe66c08543579a4bf83178ce8e1ed983f;
  0x1ec7ad7d092b87e3f6cb153cec94e5d3f70f5df50af321d3ffef64afe6b1730bf;
  0x11cec49504704733f829315f703f2a73f9ce32d24f251673f6db153cec94e5d3f;
  0x170f5df50af321d3ffef64afe6b1730bf4e14724ab39cabbf2b92c0714384a9bf;
  0x1317d8b57f60c703fd247fee6f34f61bf74ef5efa231450bf7d9d482f2bac2d3f;
  0x1ddddfeaca912a2bf739edcbe8cb3a0bffcace0bedc02653f4833a9b61c9849bf;
  0x1a0b5d1d5917f09bf9148daf5e61a1c3f8af14097a98749bff86ab697745aa2bf;
  0x1adaeb9d5cc32743f0c7533ff2676b73eba42782deb63343f402a6e0d7206fa3e;
  0x199147305ab5c4a3fb02be48aef13973f25fed79882f27cbf806e4076b631e73e;
  0x185ce9ba397ac403f538b1fdab85912bfd5c27e026a3755bf03204c346b8891bf;
  0x124aa89792da68c3fcfd8e774b68054bf16c3cbe6706f7ebf70daeb0c823b8e3f;
  0x18fb514c9f8e6e23e1a83e6b3330f0c3fe499eeb652df1bbf93fe0e1165c03a3f;
  0x13b263d1e3d6b873f4560f05f04606dbf187533ff2676b73ebb42782deb63343f;
  0x1342a6e0d7206fa3e941e668849ce403fbeb2e75337f397bf54e54b09d1c683bf;
  0x1147533ff2676b73ebb42782deb63343f382a6e0d7206fa3e1465b3da102b43bf;
  0x10339f65156197e3f86929125f427813f1ac07dafa202e23e5db784968a7b36bf;
  0x1c4dc21f5415324bf0fe969dd9be352bf0b9aa1b021a98d3feffffc6fffe7903f;
  0x1c8e3aeb4f62ab13ea8ccbad048d72d3f1a1d9eb9330bf33e1cc70c43bf7394bf;
  0x19685aacb1e29a73f1c174edae77f793f6cb153cec94e5dbf80f5df50af321dbf;
  0x1fff64afe6b17303fc35fda3109cd9a3f305615071f5190bfbbf82488951b74bf;
  0x1bd7c27cf9bb934bf7420e9cd3b78473f4258933902d7193fb92f163d394fb13f;
  0x1f7e3fc6f4bbba13f104ddb92c3ac7cbf9468ead1cee0b3bf67ed22127f339a3f;
  0x19d8e34e29a7f8a3f7c1273aa83c65ebfbde92e934948443f5bfa51093483343f;
  0x1e66c08543579a43f83178ce8e1ed98bfec7ad7d092b87ebf6cb153cec94e5dbf;
  0x170f5df50af321dbffef64afe6b17303f1cec4950470473bf829315f703f2a7bf;
  0x19ce32d24f25167bf6db153cec94e5dbf70f5df50af321dbffef64afe6b17303f;
  0x14e14724ab39cab3f2b92c0714384a93f317d8b57f60c70bfd247fee6f34f613f;
  0x174ef5efa2314503f7d9d482f2bac2dbfddddfeaca912a23f739edcbe8cb3a03f;
  0x1fcace0bedc0265bf4833a9b61c98493fa0b5d1d5917f093f9148daf5e61a1cbf;
  0x1a8cec68ffc3f953f786ad0cfa83a83bfe4e203585ad986bf8fe49344ec485d3f;
  0x1b48a80b27e2e2abfa3d9211fd3b731bf68f8058aee9f9bbf00563b0f420b7bbf;
  0x1707b7e100c87883f4979751b0e00343f7c77c2b8691254bfbc33cf7d25f5fdbe;
  0x1ae340c955bfab0bfeba7adab2bee91bf38073860979f7cbff707beabd132b43f;
  0x1a2fc6fd8a29792bf863490778e5d9cbf11e9e0b8b5a05e3fef516dce3c0946bf;
  0x1c4a72cb7be162bbfe38a2a1eb6aea4bfcb08dbb286708a3f87d567804ab4863f;
  0x18fe49344ec485d3fbe8a80b27e2e2abfa1d9211fd3b731bf4a283d1f7eea703f;
  0x170b684d0cff5b13f3b5e57924d9b893f90e49344ec485d3fbe8a80b27e2e2abf;
  0x1a2d9211fd3b731bfba4607070750abbf4b59ff3b6e47adbfdba797f3f14272bf;
  0x192c5ad89f66161bf3a837ba982ea44bf203d3592b6ff383f958e13ce8c7ba1bf;
  0x1f604052bd51da8bf9fd441b0478f8cbfba8a0332b2a049bf089d17a3961b32bf;
  0x14ac172071a58173f7d71aac13c6193bf9233ebfa512ea2bfc527b472726a813f;
  0x1b0d40edabe924dbfacd2f72e3deb2ebf6a371b1533eb243fef66ecb8445da63f;
  0x170331cdd1762723f106b8ec987ba92bfe152c55216327fbf0eb27b8f3643f13e;
  0x1917a23a2f1955a3fbafccd27a9eeb2bf586fddf08d728e3f72cf27cb461fa13f;
  0x10d5a052b3f80a53f67980fb436a0aa3f75bdc84215cc8b3f9a0fbc4c60c25b3f;
  0x1e2cbc9a74684633fde52de709b85ffbeaa7daae3250a723f2b0bf3ec262a843f;
  0x1c7a56a3d89cb72bfb0d40edabe924dbfabd2f72e3deb2ebf6a371b1533eb243f;
  0x14c22e12695ba8ebf7a5ab79ce514a0bf76b8b0710f2f80bfb0d40edabe924dbf;
  0x1aed2f72e3deb2ebf6a371b1533eb243f4d033b732a5e6e3fb8560d986a878a3f;
  0x1e7db924b9852813fb14eb71d3f9a733f3ee48798047b6c3ffb7be5fa2e9341bf;
  0x106a21f8d615fa63fd241db2ce01bb33f080f77d972688f3f642bfa32571173bf;
  0x180d4aa3ac06153bfdaf3e60f08144b3f17d628d67d04933f006583f8d84912bf;
  0x11c04b7da243170bfa6f6acf91c934d3f7c1f5ba130ed2d3f4450b70e1f0325bf;
  0x1ddc62ca79e1ca6bf43862f127529923f3250589329c4873f7de583e6f5317f3f;
  0x100286d3dcdfffdbe9caccd7b6d8f5abf2f920c7342aeb23f10898a3281ee9fbf;
  0x1734d8992cb3f94bf3e2b9564f606a6bf670a1ce457fdaebf33c197e2c3224b3f;
  0x1bb20051824c35bbff9ba5e77728763bf42cdb745b919013fa5520f4b60fd70bf;
  0x10fcf7893e2e85b3fa08096ddce42523fa6f6acf91c934d3f7b1f5ba130ed2d3f;
  0x14450b70e1f0325bfc6d69f366f12903f1ea65b0e7ae5813fc68a8a41157a61bf;
  0x1a6f6acf91c934d3f7e1f5ba130ed2d3f4450b70e1f0325bf0fa091aa1ca571bf;
  0x1d362cc0c48fe77bfb363665d86091d3fc73e67ff869a73bfd4eff618f3696cbf;
  0x1fef37e55bdb3413f55f297a0ecf6a6bfbfc3442a0c3aafbf6ce1235c49e5523f;
  0x1d69642765f11733fabe0e3dc724b533f046bfb453b184bbf63d966e0ba2f373f;
  0x1457567e77637a23f6e4bb10ac0a372bffc977d88e78767bef56596b391c1df3e;
  0x120da189cf9eba73e7904e86f842940bf1f937609fbc196bfdb0b89ffcb617b3f;
  0x108ffb1b62036803ee3ebe25b2d79e93e67d337579910babec4a25a30ad19503f;
  0x164d11b3a3ab5903fe2a28c0784fd8bbf2c26fa31e7d6503f01c831c08474813f;
  0x18839f280417e8dbf7d1e24226979883e56b478a77c5eb93e343d8ad4b86ec5be;
  0x152b0b28959cc30bf0d25623f43a787bf3e0b0a0cab756c3f00987d88e78767be;
  0x1f66596b391c1df3e24da189cf9eba73ef8b3e86594a446bfe6e140320e37973f;
  0x1275b13c2948d843f04987d88e78767bef56596b391c1df3e28da189cf9eba73e;
  0x143f3a0873bb0433f9d4a4e238d107dbfaea84d58ab8c81bff49505fc6bf8913e;
  0x10d6af4907f11e1be6001bc4c2d47d0bedd090a6f62f1523f94ffc6bdd0f68bbf;
  0x19bc57d028ee290bfe83ee4d6908660be55d5f3c65d4dd63efea6dc51d8cca03e;
  0x117d628d67d0493bf006583f8d849123f1c04b7da2431703fa6f6acf91c934dbf;
  0x17c1f5ba130ed2dbf4450b70e1f03253fddc62ca79e1ca63f43862f12752992bf;
  0x13250589329c487bf7de583e6f5317fbf00286d3dcdfffd3e9caccd7b6d8f5a3f;
  0x12f920c7342aeb2bf10898a3281ee9f3f734d8992cb3f943f3e2b9564f606a63f;
  0x1670a1ce457fdae3f33c197e2c3224bbfbb20051824c35b3ff9ba5e777287633f;
  0x142cdb745b91901bfa5520f4b60fd703f0fcf7893e2e85bbfa08096ddce4252bf;
  0x1a6f6acf91c934dbf7b1f5ba130ed2dbf4450b70e1f03253fc6d69f366f1290bf;
  0x11ea65b0e7ae581bfc68a8a41157a613fa6f6acf91c934dbf7e1f5ba130ed2dbf;
  0x14450b70e1f03253f0fa091aa1ca5713fd362cc0c48fe773fb363665d86091dbf;
  0x1c73e67ff869a733fd4eff618f3696c3ffef37e55bdb341bf55f297a0ecf6a63f;
  0x1bfc3442a0c3aaf3f6ce1235c49e552bfd69642765f1173bfabe0e3dc724b53bf;
  0x1046bfb453b184b3fade7ad96108290bf262fb24a4c25a73fd270772bf3bc673f;
  0x1c5d070b0ebce7e3f2ec418bcd923323fca4bfeb9ef2550bf64ab96e8297a8cbf;
  0x130e0b73b387f62bf3476d72fadfc7b3fa800c3566789833f003df9692fcc64bf;
  0x154ec649d3f6460bfecbcbce74715c23f58daadd22bb1713f6e9d5ac070fb9abf;
  0x1e3b55bd06a57bebf705bcbc4f5b39abf4e23fce170f3883fd4e46dc1e5b86e3f;
  0x13eba50a9c6f073bf6210a6f8a3c349bf88049dacce60a13f7dd5a41547e398bf;
  0x161f8edf3ebdb74bfc5d070b0ebce7e3f26c418bcd923323fca4bfeb9ef2550bf;
  0x1bed7ed6153bc83bf822ce9cfb0eea2bf40cd2659689358bfc5d070b0ebce7e3f;
  0x127c418bcd923323fca4bfeb9ef2550bf8274dcfd9bc7aa3f81bbd9e44c86a43f;
  0x124f96157b01d72bf3492ecdb9d5a89bfc5ea88b99f5f7abfb942efcd33b7553f;
  0x1a0476fea38ce55bf0c898253df489abff729479b971a63bfe80ecfcc5bb6673f;
  0x17e37a8e85d15533f77d0763eade643bfe25e6b3647c3a13fd9702e37712ea7bf;
  0x185bc72709e0f7cbff0313b11881c7bbf80a3595b0b6a09bf84c34eb0170b4b3f;
  0x108380e5a28fc9dbf4982a6195c79943f302ad9f6a58b733f506f081c63835fbf;
  0x1b0627ecf2f90643f34b0f0fb46e4383fa9e76c5c4d7cb1bfd3ff9a13662da2bf;
  0x1ee3f45b794ee7a3f4420119eef53b33faf5cb6015da3a1bf3ba7d2a3444187bf;
  0x1993ab8e63b4d76bf82b942db1a5a643f368d018d3fd54a3fddeefeb57a80a3bf;
  0x16e62dc3ed5a19a3f899853ab9f6c793ff0313b11881c7bbf40a3595b0b6a09bf;
  0x184c34eb0170b4b3fa5c296e798f0993f0a1680530f68a73f9890dc5384c144bf;
  0x1f0313b11881c7bbf40a3595b0b6a09bf84c34eb0170b4b3f84a82e933ffcacbf;
  0x1db4773e61586a7bfb392d770d691723fa0e571b8b41a7f3fb6e51a5a4c55683f;
  0x174915f46aaba49bf187844d97a48a6bf397f83809c15a2bfad1a59493c8d6c3f;
  0x1883d6c3fc6d85c3f8096d41d7a0aeb3e346a121e38c62cbf63d966e0ba2f37bf;
  0x1457567e77637a2bf6e4bb10ac0a3723ffc977d88e787673ef56596b391c1dfbe;
  0x120da189cf9eba7be7904e86f8429403f1f937609fbc1963fdb0b89ffcb617bbf;
  0x108ffb1b6203680bee3ebe25b2d79e9be67d337579910ba3ec4a25a30ad1950bf;
  0x164d11b3a3ab590bfe2a28c0784fd8b3f2c26fa31e7d650bf01c831c0847481bf;
  0x18839f280417e8d3f7d1e2422697988be56b478a77c5eb9be343d8ad4b86ec53e;
  0x152b0b28959cc303f0d25623f43a7873f3e0b0a0cab756cbf00987d88e787673e;
  0x1f66596b391c1dfbe24da189cf9eba7bef8b3e86594a4463fe6e140320e3797bf;
  0x1275b13c2948d84bf04987d88e787673ef56596b391c1dfbe28da189cf9eba7be;
  0x143f3a0873bb043bf9d4a4e238d107d3faea84d58ab8c813ff49505fc6bf891be;
  0x10d6af4907f11e13e6001bc4c2d47d03edd090a6f62f152bf94ffc6bdd0f68b3f;
  0x19bc57d028ee2903fe83ee4d69086603e55d5f3c65d4dd6befea6dc51d8cca0be;
  0x1e25e6b3647c3a1bfd9702e37712ea73f85bc72709e0f7c3ff0313b11881c7b3f;
  0x180a3595b0b6a093f84c34eb0170b4bbf08380e5a28fc9d3f4982a6195c7994bf;
  0x1302ad9f6a58b73bf506f081c63835f3fb0627ecf2f9064bf34b0f0fb46e438bf;
  0x1a9e76c5c4d7cb13fd3ff9a13662da23fee3f45b794ee7abf4420119eef53b3bf;
  0x1af5cb6015da3a13f3ba7d2a34441873f993ab8e63b4d763f82b942db1a5a64bf;
  0x1368d018d3fd54abfddeefeb57a80a33f6e62dc3ed5a19abf899853ab9f6c79bf;
  0x1f0313b11881c7b3f40a3595b0b6a093f84c34eb0170b4bbfa5c296e798f099bf;
  0x10a1680530f68a7bf9890dc5384c1443ff0313b11881c7b3f40a3595b0b6a093f;
  0x184c34eb0170b4bbf84a82e933ffcac3fdb4773e61586a73fb392d770d69172bf;
  0x1a0e571b8b41a7fbfb6e51a5a4c5568bf74915f46aaba493f187844d97a48a63f;
  0x1397f83809c15a23fad1a59493c8d6cbf883d6c3fc6d85cbf8096d41d7a0aebbe;
  0x1346a121e38c62c3f952c2caca6f1a13f50ee1b3fe9db83bffa03923daf5987bf;
  0x12ff62ed5931c7bbfc1d6e624d97105bfbbc9b5ae12114b3f2c788d7d747d9ebf;
  0x1b086807ef74462bf061b31fbb876873fc0b9026be1825fbf9c45dafca8a9643f;
  0x16178996236ca383f1e7daba7e63bb1bf422e1aed91a593bfd605d457730c7dbf;
  0x1dd08d93a4b97b33f5ed553a3778c9abf62706212c35f9abf51f6e5f30a4d76bf;
  0x199a8d7aa465d643ff9022dd4d0bf4a3f3e54126913a2a3bfcf9f563e679c8d3f;
  0x1144fac98bad3833f2ff62ed5931c7bbf81d6e624d97105bfbbc9b5ae12114b3f;
  0x1057d6744743b993f7e435036cb81b13f1e92d57c7c41833f2ff62ed5931c7bbf;
  0x181d6e624d97105bfbbc9b5ae12114b3fb72410a57eadacbf2f11dd8a2728abbf;
  0x1a9bec33f808770bfb6d5219afc1a7f3f4cf189da3a44683f7709f9a038db49bf;
  0x1c927ccc5efb0a5bf1e3ff5af5013a9bf8b44a5f2cca18abfc08f4a32a5d85c3f;
  0x19540a7809418f33e8d8dc0456bb52cbf4c96dfbe7e1036bfd5c02770b703a3bf;
  0x1834f97d6acee773f53d3b03caf921a3fdca4c91e74963a3f40c1517d382dcd3e;
  0x1b94d43616a1ea43fcd4b2c84c680893f5f6357bc4bd294bfa1e74c959c3f8bbf;
  0x1644944ee92685bbf84d6bd3389076c3f7978645d1aa4b1bf68da404a37866f3f;
  0x1bd3022130909a33f90daf2ef8e84a03f4ee97416583ba93feef539ada938903f;
  0x11702c03781f8653f89a6a6cd28e4733f10506c94dd33d53eef4bc50f46b53a3f;
  0x1b27c789a49df893fbe3ffdfabb8470bf54d3b03caf921a3fdaa4c91e74963a3f;
  0x158c1517d382dcd3e8b77f47d6382533fce1fc1b495ed97bf5e7cd771e0f084bf;
  0x154d3b03caf921a3fdca4c91e74963a3f58c1517d382dcd3e7e8589aac5eb4abf;
  0x15b5611812c9c803fa5613de2059a823f0c41363c27557f3fd7afc1904d1f7d3f;
  0x19f8cd1f9a53f50bf340e713f2215a03f0af8b93c631fb33fffce4ef6633a923f;
  0x115749e71de5e80bfe1b837894dbe6abf5da0f344effc5b3fbd84c463f68350bf;
  0x19a9acbf148c625bfbce60351ab63313f193c41f3a81319bf90a3622fbdd605bf;
  0x18cec3890ca3ff53e7d124d8e838ba3bfa1c046a006e4833f54b144cf62cd8a3f;
  0x1b612359e7e498b3fac1ee2fbf3fc613f58f187151bbb6cbff08bc86c8f3fb13f;
  0x150175b0152aa90bfa71a5ff2f27b97bfaae1188fca4aa1bf5902779a2be2aebf;
  0x1e84b9eebecac58bfd59c5abf47df65bf3652887f1b8873bf5be4cd100a361fbf;
  0x166756467f1ec2d3f9c2fb1fd76740ebff15689f2c68414bf1a3c41f3a81319bf;
  0x190a3622fbdd605bf8dec3890ca3ff53e24ba71400b724abf4957d951687444bf;
  0x19efadafd353d1f3f1a3c41f3a81319bf91a3622fbdd605bf8dec3890ca3ff53e;
  0x1cbe6555d9e7d293f8045cf39b06d373fa54514bc1c3be63e985c6515894e7fbf;
  0x1245375c3cdaf7ebf7980b0d092264b3f4a73bad102a6a0bfa040cc296b9aaebf;
  0x176b787e9f4095dbff7dc0547a860803f8b61797d95866c3f378201c56ac15bbf;
  0x1506a7c131608563f708c19b97d19a33fef8da78be70479bfa473f99664f0d7be;
  0x16a50dd789cdb37bfb424e39f71e5f8be7a67c75eda5c52bf3786399266b296bf;
  0x1d32ad45269ae7d3f8b2956d011c4f3bee7e7ff12aa2241bf8b5a43393c72163f;
  0x12422fb26bc22593f06f825301673893fa68dca673e2c8dbf3ae3c0e473c7583f;
  0x12d6408104e9b863f602200bdb55b8dbfed4165657839e9bed1149587530317bf;
  0x15a1f8737cce21d3f51c3bb61dfd544bf82cb7a23d5c089bf1a65c716cfd6703f;
  0x1a473f99664f0d7be6850dd789cdb37bfb824e39f71e5f8bee469ee76772539bf;
  0x188ea4ff73891983f69c6db0566b2843fa473f99664f0d7be6a50dd789cdb37bf;
  0x1b824e39f71e5f8becb0b34135e8c443f87d0df029a5781bfb6666ca9949f82bf;
  0x1d8cf91439b78dabecd343a2b0308393f1463ca8be462253fcaa22c49121c523f;
  0x1d3bd9e3e6d918ebf8853b6a7c46990bf52228e76569dccbe9c8a1a447f842cbf;
  0x138130ff93fc2edbebd84c463f683503f9a9acbf148c6253fbce60351ab6331bf;
  0x1193c41f3a813193f90a3622fbdd6053f8cec3890ca3ff5be7d124d8e838ba33f;
  0x1a1c046a006e483bf54b144cf62cd8abfb612359e7e498bbfac1ee2fbf3fc61bf;
  0x158f187151bbb6c3ff08bc86c8f3fb1bf50175b0152aa903fa71a5ff2f27b973f;
  0x1aae1188fca4aa13f5902779a2be2ae3fe84b9eebecac583fd59c5abf47df653f;
  0x13652887f1b88733f5be4cd100a361f3f66756467f1ec2dbf9c2fb1fd76740e3f;
  0x1f15689f2c684143f1a3c41f3a813193f90a3622fbdd6053f8dec3890ca3ff5be;
  0x124ba71400b724a3f4957d9516874443f9efadafd353d1fbf1a3c41f3a813193f;
  0x191a3622fbdd6053f8dec3890ca3ff5becbe6555d9e7d29bf8045cf39b06d37bf;
  0x1a54514bc1c3be6be985c6515894e7f3f245375c3cdaf7e3f7980b0d092264bbf;
  0x14a73bad102a6a03fa040cc296b9aae3f76b787e9f4095d3ff7dc0547a86080bf;
  0x18b61797d95866cbf378201c56ac15b3fda7d911cec1a623f8f0a7d628788a83f;
  0x17f345a923e1f723f71750f1eed23863fd208d93c4446563f7ecbabe2d8cc5abf;
  0x1e1d42c219b3493bfb05534e4954356bfca589880160e823fe41761c36d8a8a3f;
  0x1148025f7129e6abfb2c658d3674b70bfe4c9b792147dc03f5c899f78f7f48e3f;
  0x1582bc25bffb09ebfaad04e78abe7babfc45a81f26e8ba7bfb2f8d85e61c9873f;
  0x14fda583f2c178c3f82d6ef4b8c8280bf5ae717963fab69bf2ba9c03c8849a43f;
  0x1d9c381fa260f97bf77efaea705e881bf72750f1eed23863fce08d93c4446563f;
  0x17ecbabe2d8cc5abff335476feeff963f23a6ea8a1e32a7bf94789579818280bf;
  0x172750f1eed23863fd108d93c4446563f7ecbabe2d8cc5abf34a6a6b52dc5a83f;
  0x1d55a274b5ec2ab3fb526e95686c665bfe8f9d7927d9396bffd26097024e68fbf;
  0x1edef9863bcb9633fe6382b00b2f381bfcd875fdab002a1bf851160b8b14b69bf;
  0x1a0267cbfe7cb38bff8ec4c1c0fb6633f2c98664240ae3bbf38c0734ee75c6abf;
  0x12ad66eab4d9ea8bf13f649dd030971bfe9f7f56f145686bfee1d5426faf456bf;
  0x130afec0cd8215b3f19506dfb6be293bf574bcd5c79ac863f14b1589d987e713f;
  0x1485a7f5a1be2373f60cf8379834d763f5ce04c89a4dd3e3fae0f4e713375afbf;
  0x1ff6dd5de6612a0bfc4428ca531d47c3fd55fc2304642b23f529ed69ff25a8dbf;
  0x12fc24cfcfede8abfc2c097177fc790bf9eb5ae30faf96a3f377891458fb1683f;
  0x1b644594b9b2ba4bf41eb02bfecff963fc9dcc919fcbe813feaf7f56f145686bf;
  0x1ea1d5426faf456bf30afec0cd8215b3fc4c34ac97ed397bfc640a3e94ce0a63f;
  0x1892e91e5fbc0803feaf7f56f145686bfee1d5426faf456bf30afec0cd8215b3f;
  0x14d504917b0aba8bf4abcb3ea8293abbffb3aa573c1dc653f8445fd9ab67f8d3f;
  0x16b7d4e8e3d8e803f9d9fd95e2fe059bf214a5fa32c5298bfa671d99e742f9bbf;
  0x1946b38876e8d553f2cbe01850727813f26e958c20ca1513f2cdc67b4dad554bf;
  0x1506a7c13160856bf708c19b97d19a3bfef8da78be704793fa473f99664f0d73e;
  0x16a50dd789cdb373fb424e39f71e5f83e7a67c75eda5c523f3786399266b2963f;
  0x1d32ad45269ae7dbf8b2956d011c4f33ee7e7ff12aa22413f8b5a43393c7216bf;
  0x12422fb26bc2259bf06f82530167389bfa68dca673e2c8d3f3ae3c0e473c758bf;
  0x12d6408104e9b86bf602200bdb55b8d3fed4165657839e93ed11495875303173f;
  0x15a1f8737cce21dbf51c3bb61dfd5443f82cb7a23d5c0893f1a65c716cfd670bf;
  0x1a473f99664f0d73e6850dd789cdb373fb824e39f71e5f83ee469ee767725393f;
  0x188ea4ff7389198bf69c6db0566b284bfa473f99664f0d73e6a50dd789cdb373f;
  0x1b824e39f71e5f83ecb0b34135e8c44bf87d0df029a57813fb6666ca9949f823f;
  0x1d8cf91439b78da3ecd343a2b030839bf1463ca8be46225bfcaa22c49121c52bf;
  0x1d3bd9e3e6d918e3f8853b6a7c469903f52228e76569dcc3e9c8a1a447f842c3f;
  0x138130ff93fc2ed3e38c0734ee75c6a3f2ad66eab4d9ea83f13f649dd0309713f;
  0x1e9f7f56f1456863fee1d5426faf4563f30afec0cd8215bbf19506dfb6be2933f;
  0x1574bcd5c79ac86bf14b1589d987e71bf485a7f5a1be237bf60cf8379834d76bf;
  0x15ce04c89a4dd3ebfae0f4e713375af3fff6dd5de6612a03fc4428ca531d47cbf;
  0x1d55fc2304642b2bf529ed69ff25a8d3f2fc24cfcfede8a3fc2c097177fc7903f;
  0x19eb5ae30faf96abf377891458fb168bfb644594b9b2ba43f41eb02bfecff96bf;
  0x1c9dcc919fcbe81bfeaf7f56f1456863fea1d5426faf4563f30afec0cd8215bbf;
  0x1c4c34ac97ed3973fc640a3e94ce0a6bf892e91e5fbc080bfeaf7f56f1456863f;
  0x1ee1d5426faf4563f30afec0cd8215bbf4d504917b0aba83f4abcb3ea8293ab3f;
  0x1fb3aa573c1dc65bf8445fd9ab67f8dbf6b7d4e8e3d8e80bf9d9fd95e2fe0593f;
  0x1214a5fa32c52983fa671d99e742f9b3f946b38876e8d55bf2cbe0185072781bf;
  0x126e958c20ca151bf2cdc67b4dad5543f20166b89b8b15ebfe82655c93f1386bf;
  0x101c278b4f50685bf17d7887c125986bf08728b44e1eb5cbf9d226d4642be5a3f;
  0x191c659a1390895bf17c1a5c753b886bff46d16f88096873faff7793ddaa5363f;
  0x163d223372e29743f7fdbcecb193d423f9d3616901dacaebffbdf97a5426b93bf;
  0x188d8082a4b847dbf6263550064a5b23f94e8383f92fe6abf4872a65c5a1d9cbf;
  0x16a6da446a6ca90bff70c7294df416a3f32b14da7a5a0693fc333e0c8f27ea4bf;
  0x1000b8b5a043f843f568f2da5632a8a3f18d7887c125986bf04728b44e1eb5cbf;
  0x19d226d4642be5a3f6c7d26a7143898bf059ba5b27494b13f797ab6f5b0b9923f;
  0x118d7887c125986bf08728b44e1eb5cbf9d226d4642be5a3f1e80fc9e7e59a8bf;
  0x16cb06b6b69e9afbfee2f0699c8507abf4ad39487677c8d3f114fa8a77d56813f;
  0x13a5360cdd23357bff47fcc7e6b3097bf4868149f153ca5bf9e99857edb218ebf;
  0x14a559aaf3d25813fa52fabb3f9204c3f52fa59345f1155bf]%N.
Definition file_182 : list N := [0x1934e554d5059010076007b276465736372273a205b282773616d706c65272c20;
  0x1273c693427292c202827737472756374757265272c20273c693427292c202827;
  0x161746f6d272c20273c693427295d2c2027666f727472616e5f6f72646572273a;
  0x12046616c73652c20277368617065273a202832372c292c207d2020202020200a;
  0x10000000000000000010000000000000000000000020000000000000000000000;
  0x10300000001000000000000000100000001000000000000000200000001000000;
  0x10000000003000000020000000000000001000000020000000000000002000000;
  0x10200000000000000030000000300000001000000010000000300000001000000;
  0x10200000003000000010000000300000004000000010000000100000004000000;
  0x10100000002000000040000000100000003000000050000000100000001000000;
  0x10500000001000000020000000500000001000000030000000600000002000000;
  0x10100000006000000020000000200000006000000020000000300000007000000;
  0x10200000001000000070000000200000002000000070000000200000003000000;
  0x10800000002000000010000000800000002000000020000000800000002000000;
  0x103000000]%N.
Definition file_183 : list N := [0x1934e554d5059010076007b276465736372273a205b28276772616469656e745f;
  0x1646972656374696f6e272c20273c693427295d2c2027666f727472616e5f6f72;
  0x1646572273a2046616c73652c20277368617065273a2028332c292c207d202020;
  0x1202020202020202020202020202020202020202020202020202020202020200a;
  0x1000000000100000002000000]%N.
Definition file_184 : list N := [0x1934e554d5059010076007b276465736372273a205b282773706865726963616c;
  0x15f6861726d6f6e6963735f6d272c20273c693427295d2c2027666f727472616e;
  0x15f6f72646572273a2046616c73652c20277368617065273a2028352c292c207d;
  0x1202020202020202020202020202020202020202020202020202020202020200a;
  0x1feffffffffffffff000000000100000002000000]%N.
Definition file_185 : list N := [0x1934e554d5059010076007b276465736372273a20273c6638272c2027666f7274;
  0x172616e5f6f72646572273a2046616c73652c20277368617065273a2028392c20;
  0x1352c2033292c207d202020202020202020202020202020202020202020202020;
  0x1202020202020202020202020202020202020202020202020202020202020200a;
  0x1429aa52ba9ed9bbf6d1edc1889309fbf4f945dab6fb7583f768a159738cb59bf;
  0x1b55e018e49ce5cbf54cad28ad6d3163fc0b510bdf88896bf0333211f9f2a99bf;
  0x1277a806687f1533fd41254a63bb3453f76c89ca6ec3b483f26cf8ae15e3403bf;
  0x1f5f328e1b2529bbf40e713757a839ebf6ff196894b2e583fc56e6f55c955533f;
  0x13e28a5eb15b296bf6a426c857bf693bf0c985763fb6cb8be71995f90c8abfc3e;
  0x1ec2b8091fc37f93e1adb55931fe0483f62738bdeef328dbf0c5723b5ddae89bf;
  0x10c8df4769e9bc33e923b13310e0407bfa2c1a009953e04bf5c528445f2ff42bf;
  0x1e6c4cf79534d863f98227d08db9d833f0be3864c9695213f40ef6e3a26ef50bf;
  0x1f8cdc061db6d67bf20911bcfbfa0a83e5390bb96a4b7d7be273bfcfc2e68f0be;
  0x1d6309a0de8d9463f75d5b5f99d0176bfbdec5e2357728ebfdfd9acd2f3a1ebbe;
  0x172953900689c1a3f473fbb2c9f68323f617eb31d20ab53bff814330af6f0823f;
  0x1057de892bc349a3ff71c56b84c1d98bff3d68b0620b09ebf30d545a578c24c3f;
  0x174528008dc21763f577ad5a85b2a7c3f43f57b3b48652abfe087e70fba1f94bf;
  0x10351eff8129c99bf0eaba3801c00483fd105690e267061bffa721d5f103166bf;
  0x19adc998215cc143fbf0f24de1bdb99bfed28dbf7ba73a0bf14e2054528d64e3f;
  0x1d969aefced99433f2a561ed8b7349abfdcf982326e2192bf007be2802921f4be;
  0x1c6b2036384e94a3fe6b7332f849e423f1bd220bd7d86393f7a96e460241091bf;
  0x144f67004349c87bfb468f3bb0aa7003f3f6b60b1784356bfc72c44795dce4ebf;
  0x12017f38b809534bf85e02ccf0e858b3f3c702695200a833f36a38fb9d7bc233f;
  0x1ab2f72ddbe1353bf8757157021ee69bfef1183cfec77dbbe7f27f9b2988c0a3f;
  0x15d7bb221110b223fa79023220c07473f72fbb3e9c34176bfa3bafef591408ebf;
  0x1176985ae8fc01b3f73077747cdd24abf9ec4b38fc73a62bf0fdcc70680dd53bf;
  0x1123c0c624f33833f99a92cb708199a3f97d1c370918494bf677508415b1e97bf;
  0x1830b53b521d0513f1ff082dda0b37f3f5a85546529dc813f62f9928ac2853bbf;
  0x1c882fca4e5a995bfd399c5c1dd6898bfa4bef1a4cace523f0742eb97a45a62bf;
  0x1a8d97cf537ae64bfc251517875de1f3f0ee407d90f3ca0bf4044c4dfdc4aa2bf;
  0x13ebd9a0a5a305c3f8d4ccdd093fa4f3f2b8f594286bc99bfef749fe2290d94bf;
  0x1fbe5aa4a1376ecbe83f168d5cde7363f62c59e7187d8313fbb8018d4c6b1433f;
  0x1e90edff933b38fbf6335c5f09bb288bf38ec733a867af43ea8944494297b40bf;
  0x1bf75b3025bae39bf82b492f00dcc37bf27eb7f5fdc26833fd55d261cb4d77d3f;
  0x193e876ce7e23233f6159cba9a62e5abf536ad634952661bf20197260a10ce4be;
  0x1e75c5124966d1b3fa67d518680f7213fc2beb4a5cb114f3ff35443ca824085bf;
  0x1eab653b3a1d78bbf3b0099fa10602c3fcbdda5e7b96863bf5af3217f8b6d69bf;
  0x16097630d98085bbfc4aa0d40c97d923fe9e535c8bf39983f]%N.
Definition file_186 : list N := [0x1934e554d5059010076007b276465736372273a205b2827737472756374757265;
  0x1272c20273c693427292c20282763656e746572272c20273c693427295d2c2027;
  0x1666f727472616e5f6f72646572273a2046616c73652c20277368617065273a20;
  0x128392c292c207d2020202020202020202020202020202020202020202020200a;
  0x10000000001000000000000000200000000000000030000000100000001000000;
  0x10100000002000000010000000300000002000000010000000200000002000000;
  0x10200000003000000]%N.
Definition file_187 : list N := [0x1934e554d5059010076007b276465736372273a205b282773706865726963616c;
  0x15f6861726d6f6e6963735f6d272c20273c693427295d2c2027666f727472616e;
  0x15f6f72646572273a2046616c73652c20277368617065273a2028352c292c207d;
  0x1202020202020202020202020202020202020202020202020202020202020200a;
  0x1feffffffffffffff000000000100000002000000]%N.
Definition file_188 : list N := [0x1934e554d5059010076007b276465736372273a205b28276e272c20273c693427;
  0x1295d2c2027666f727472616e5f6f72646572273a2046616c73652c2027736861;
  0x17065273a2028332c292c207d2020202020202020202020202020202020202020;
  0x1202020202020202020202020202020202020202020202020202020202020200a;
  0x1000000000100000002000000]%N.
Definition file_189 : list N := [0x1934e554d5059010076007b276465736372273a20273c6638272c2027666f7274;
  0x172616e5f6f72646572273a2046616c73652c20277368617065273a202831382c;
  0x120332c20352c2033292c207d2020202020202020202020202020202020202020;
  0x1202020202020202020202020202020202020202020202020202020202020200a;
  0x1e262cf6594be8abf2003f43365e6a9bfd704e28d1bef68bfb7d7c19ef29b613f;
  0x1284360f7ff20353f97d53a64e70936bf77f4a524a742923f5d87060b62b582bf;
  0x14e3a6285a07c70bf42c0d9c0bdc7343f2d9d3781c41f543f59752e7da05f133f;
  0x17ecac2175f7cad3f6cf1c75167ca9d3fe0236d2d83237cbfa88c7111353fb1bf;
  0x1e2167f088332853fbec5624ea5f7893f49a5c75284db6fbfafb3132ec593433f;
  0x15450f70893fb473fec611a4485b4a5bf5c1375f3e43c963fbfe557e0d798833f;
  0x1b7d7c19ef29b613f2c4360f7ff20353f96d53a64e70936bfaaee6d687197a2bf;
  0x1d267fa1cd41ba63f956cb87d350d863fb8d7c19ef29b613f2c4360f7ff20353f;
  0x198d53a64e70936bff19782bb60b0a9bfec3fbb6308c0acbf7bf4f62bc4a1663f;
  0x172aa5031d8c2693ffede984cad105e3f383e59830be536bfc2033e6aa69c953f;
  0x10ed5bea3ee2f983fbc9472e53e0a53bfaa6e71053e3a613faa865bd4c3ab343f;
  0x1aa8151f99e8f35bfe262cf6594be8a3f2003f43365e6a93fd704e28d1bef683f;
  0x1b7d7c19ef29b61bf284360f7ff2035bf97d53a64e709363f77f4a524a74292bf;
  0x15d87060b62b5823f4e3a6285a07c703f42c0d9c0bdc734bf2d9d3781c41f54bf;
  0x159752e7da05f13bf7ecac2175f7cadbf6cf1c75167ca9dbfe0236d2d83237c3f;
  0x1a88c7111353fb13fe2167f08833285bfbec5624ea5f789bf49a5c75284db6f3f;
  0x1afb3132ec59343bf5450f70893fb47bfec611a4485b4a53f5c1375f3e43c96bf;
  0x1bfe557e0d79883bfb7d7c19ef29b61bf2c4360f7ff2035bf96d53a64e709363f;
  0x1aaee6d687197a23fd267fa1cd41ba6bf956cb87d350d86bfb8d7c19ef29b61bf;
  0x12c4360f7ff2035bf98d53a64e709363ff19782bb60b0a93fec3fbb6308c0ac3f;
  0x17bf4f62bc4a166bf72aa5031d8c269bffede984cad105ebf383e59830be5363f;
  0x1c2033e6aa69c95bf0ed5bea3ee2f98bfbc9472e53e0a533faa6e71053e3a61bf;
  0x1aa865bd4c3ab34bfaa8151f99e8f353f944b7ff7e23d6c3f71b3cebc7cfda33f;
  0x1c687606ada9581bf80170f86ccb4cdbe48188eeb8d2110bf00562b98298eb3be;
  0x1158719980882633fd9d2f7da1192963fca4b9a2c7ad980bf8eef2321e3a3dc3e;
  0x1213c918daf45143f88223dbf5dd5f1be031c230e6f2463bf50193c3fef1e7dbf;
  0x196c5d45eb1638e3fd0d0b1f4323c66bfac5ab8ea04ff8bbfc999b49d8a228e3f;
  0x1615549fcdb16cc3e9201f7c6fcaef13e5a2c2a43d308f3beef6da4281c4d58bf;
  0x1fb31115fca1d8cbfeba4dbcf55fd743f82170f86ccb4cdbe48188eeb8d2110bf;
  0x1f0552b98298eb3be7679fa1ec3c1333f624d71cd22ba9a3f75f3c6e0cb1c843f;
  0x184170f86ccb4cdbe49188eeb8d2110bff0552b98298eb3be4f8c02ab1be8423f;
  0x1c46a8001433186bf4b357a6d348583bff048622f3c14b0be8922eb169edf10bf;
  0x17678225cf4a4f7bec7257416da5a4ebf377bfcc8aad0913fdaa7979412578f3f;
  0x1c289fe45ea30bd3e7ef7a6b7e0b3ff3e209dd03e5837a33e944b7ff7e23d6cbf;
  0x171b3cebc7cfda3bfc687606ada95813f80170f86ccb4cd3e48188eeb8d21103f;
  0x100562b98298eb33e15871998088263bfd9d2f7da119296bfca4b9a2c7ad9803f;
  0x18eef2321e3a3dcbe213c918daf4514bf88223dbf5dd5f13e031c230e6f24633f;
  0x150193c3fef1e7d3f96c5d45eb1638ebfd0d0b1f4323c663fac5ab8ea04ff8b3f;
  0x1c999b49d8a228ebf615549fcdb16ccbe9201f7c6fcaef1be5a2c2a43d308f33e;
  0x1ef6da4281c4d583ffb31115fca1d8c3feba4dbcf55fd74bf82170f86ccb4cd3e;
  0x148188eeb8d21103ff0552b98298eb33e7679fa1ec3c133bf624d71cd22ba9abf;
  0x175f3c6e0cb1c84bf84170f86ccb4cd3e49188eeb8d21103ff0552b98298eb33e;
  0x14f8c02ab1be842bfc46a80014331863f4b357a6d3485833ff048622f3c14b03e;
  0x18922eb169edf103f7678225cf4a4f73ec7257416da5a4e3f377bfcc8aad091bf;
  0x1daa7979412578fbfc289fe45ea30bdbe7ef7a6b7e0b3ffbe209dd03e5837a3be;
  0x19f265c869bb53dbf92e1811208b5713f7bb47f37e91e403f6e557f0e7705c7be;
  0x17a0b341637effa3e7caa017a0275e13e53478ef88b4261bf857ecc14d70a953f;
  0x127240bba4ba066bfcdac6c14dc57073f275d29855dd33bbf843802582c5509bf;
  0x17d4c84fa1cab6d3f9dadb4e83017a2bf6ac6dd3e4af0733fd73c3fe5757e4bbf;
  0x1bd6680ceb7497a3f4a37b7f3e9d6923f13939aede540d3be564c3514b168023f;
  0x1e2ef8981c9621a3f3e61a7c42bc41e3f8d2c7ed416c152bfa14efee5742a243f;
  0x16e557f0e7705c7be7a0b341637effa3e7caa017a0275e13e02310d7e208d33bf;
  0x12832adec3238663f4c507204414b5d3f6e557f0e7705c7be7a0b341637effa3e;
  0x17caa017a0275e13e2e1c1f060350093f5b0ef928026038bf8883e50418de50bf;
  0x1a925a94393b3f4be3a952c191d08273fb060ce9fbcf9243f288cd90199664cbf;
  0x134df562050597b3f1875a9e4eaec923f30ff1fd2f8bff93eb206b0a773202ebf;
  0x11486c5d6af8613bf9f265c869bb53d3f92e1811208b571bf7bb47f37e91e40bf;
  0x16e557f0e7705c73e7a0b341637effabe7caa017a0275e1be53478ef88b42613f;
  0x1857ecc14d70a95bf27240bba4ba0663fcdac6c14dc5707bf275d29855dd33b3f;
  0x1843802582c55093f7d4c84fa1cab6dbf9dadb4e83017a23f6ac6dd3e4af073bf;
  0x1d73c3fe5757e4b3fbd6680ceb7497abf4a37b7f3e9d692bf13939aede540d33e;
  0x1564c3514b16802bfe2ef8981c9621abf3e61a7c42bc41ebf8d2c7ed416c1523f;
  0x1a14efee5742a24bf6e557f0e7705c73e7a0b341637effabe7caa017a0275e1be;
  0x102310d7e208d333f2832adec323866bf4c507204414b5dbf6e557f0e7705c73e;
  0x17a0b341637effabe7caa017a0275e1be2e1c1f06035009bf5b0ef9280260383f;
  0x18883e50418de503fa925a94393b3f43e3a952c191d0827bfb060ce9fbcf924bf;
  0x1288cd90199664c3f34df562050597bbf1875a9e4eaec92bf30ff1fd2f8bff9be;
  0x1b206b0a773202e3f1486c5d6af86133f30fa9816ea0a8cbf08f3cac92fa7a9bf;
  0x1928edb8ed8bd6dbf244df0a714267dbf2f1a1bd7c18759bf13ad900990e9533f;
  0x1292833454c17903febd3ae588bca7dbf53cb4ded9a8d70bf33e829d8584754bf;
  0x1a00747befb8c72bfe20ca5d5dc8135bff31e7b344b0baa3fca510c8f7d689e3f;
  0x120d8ae2b81f379bf77c5d5827f4aafbf44cd12398132753fbda5342512318a3f;
  0x127adf6ac0ab88c3f08dc9555737453bfccf4fd66eb0968bf6d20968a2d6ca4bf;
  0x1fb0192c8c5e7923fd60fbe1b5502853f244df0a714267dbf2f1a1bd7c18759bf;
  0x113ad900990e9533f8c1e62ac4b54a4bfb747e70da4aaa33fd351bf66b21c8a3f;
  0x1224df0a714267dbf2e1a1bd7c18759bf12ad900990e9533f4f6c961ae70da6bf;
  0x160b9ab2476f2acbf8272a6fa17bb563f0388aa2329b885bf38232c2e7aa67dbf;
  0x19dd9eb0d7677533f725bf4b66c60913f2e1e62e1b9ce963f6dd510e1e1e841bf;
  0x12eeafbc7f5407fbf3821c3d1bd5f5bbf325349ccaf59553f30fa9816ea0a8c3f;
  0x108f3cac92fa7a93f928edb8ed8bd6d3f244df0a714267d3f2f1a1bd7c187593f;
  0x113ad900990e953bf292833454c1790bfebd3ae588bca7d3f53cb4ded9a8d703f;
  0x133e829d85847543fa00747befb8c723fe20ca5d5dc81353ff31e7b344b0baabf;
  0x1ca510c8f7d689ebf20d8ae2b81f3793f77c5d5827f4aaf3f44cd1239813275bf;
  0x1bda5342512318abf27adf6ac0ab88cbf08dc95557374533fccf4fd66eb09683f;
  0x16d20968a2d6ca43ffb0192c8c5e792bfd60fbe1b550285bf244df0a714267d3f;
  0x12f1a1bd7c187593f13ad900990e953bf8c1e62ac4b54a43fb747e70da4aaa3bf;
  0x1d351bf66b21c8abf224df0a714267d3f2e1a1bd7c187593f12ad900990e953bf;
  0x14f6c961ae70da63f60b9ab2476f2ac3f8272a6fa17bb56bf0388aa2329b8853f;
  0x138232c2e7aa67d3f9dd9eb0d767753bf725bf4b66c6091bf2e1e62e1b9ce96bf;
  0x16dd510e1e1e8413f2eeafbc7f5407f3f3821c3d1bd5f5b3f325349ccaf5955bf;
  0x1e46240989ff97a3f63a6859b467ba43f95d2571628cd85bfcaf629be956e2abf;
  0x100f474cc62d35bbf48478200c5bc0c3f1e3f9637a4f0713ffdb7224f0ca6963f;
  0x1079bbab909c383bfcd89b832c1ea363ff7470eca7c66613ff99b10c1898542bf;
  0x1b706e3090a1f6fbfa02c5f2683457abffaf404d0680f903f47ec5db43d9a71bf;
  0x1aeeca4d9e4bb85bf0c95d0d3ed32903f344969ffae13223f38b04510d751363f;
  0x161d60f2bb0a240bfeef13af294af65bf44c5a12ead608bbf061244925ce3773f;
  0x1caf629be956e2abf00f474cc62d35bbf38478200c5bc0c3f5d7933ffa8b95b3f;
  0x19f1a2a65eb6c9e3f8cad74658431813fcaf629be956e2abf00f474cc62d35bbf;
  0x140478200c5bc0c3ffeef36215c36343f55729a9b1e588abf83f69f819d4e82bf;
  0x18a75811c45911dbfc2e468291c185fbf9a416e2b3cc940bf950c090194b840bf;
  0x1990b275630cb953f2d3f7c812a4a8e3f68ca0766d3c11b3fe1230bd083384d3f;
  0x188590c60992dfebee46240989ff97abf63a6859b467ba4bf95d2571628cd853f;
  0x1caf629be956e2a3f00f474cc62d35b3f48478200c5bc0cbf1e3f9637a4f071bf;
  0x1fdb7224f0ca696bf079bbab909c3833fcd89b832c1ea36bff7470eca7c6661bf;
  0x1f99b10c18985423fb706e3090a1f6f3fa02c5f2683457a3ffaf404d0680f90bf;
  0x147ec5db43d9a713faeeca4d9e4bb853f0c95d0d3ed3290bf344969ffae1322bf;
  0x138b04510d75136bf61d60f2bb0a2403feef13af294af653f44c5a12ead608b3f;
  0x1061244925ce377bfcaf629be956e2a3f00f474cc62d35b3f38478200c5bc0cbf;
  0x15d7933ffa8b95bbf9f1a2a65eb6c9ebf8cad7465843181bfcaf629be956e2a3f;
  0x100f474cc62d35b3f40478200c5bc0cbffeef36215c3634bf55729a9b1e588a3f;
  0x183f69f819d4e823f8a75811c45911d3fc2e468291c185f3f9a416e2b3cc9403f;
  0x1950c090194b8403f990b275630cb95bf2d3f7c812a4a8ebf68ca0766d3c11bbf;
  0x1e1230bd083384dbf88590c60992dfe3ed61e84690d4740bf2e768e4532b3733f;
  0x1615904c8aa33413f22b02cb2dd21f93ee34f5182efcf2dbfb812490b510313bf;
  0x1759ab8a898e960bf5b16ed6e94f9943fc6b289dc469d67bf16bb770018e336bf;
  0x10e015980ffb26b3f67d34154c92f383f463e51b1eb266d3fd6b25ce7be14a2bf;
  0x1e29fdf1c13aa743fbded119930ae4bbfe6a0652938827a3fe7ad969b86cf923f;
  0x168bbf801d842033f67578edf1c7232bf2b71f617a82d4abf180a6ebe54bd203f;
  0x1188ae28daec254bfb5cc8c78785f273f21b02cb2dd21f93ee44f5182efcf2dbf;
  0x1b612490b510313bf2cff0b1c838d35bfbcc8955593c8683fc332bcca8f2a603f;
  0x122b02cb2dd21f93ee54f5182efcf2dbfb612490b510313bf4fc84c38e7f40b3f;
  0x12487697fa8e63abf91205197d4ab52bf38618611fd71243f6caf64e24ffb56bf;
  0x1dbcd952195be54bf1fdeb993d43e4cbfb361813bcb2d7b3f7511c32234dd923f;
  0x185d2b600734b29bffdcb4a1c43015e3f6ead0b61c622433fd61e84690d47403f;
  0x12e768e4532b373bf615904c8aa3341bf22b02cb2dd21f9bee34f5182efcf2d3f;
  0x1b812490b5103133f759ab8a898e9603f5b16ed6e94f994bfc6b289dc469d673f;
  0x116bb770018e3363f0e015980ffb26bbf67d34154c92f38bf463e51b1eb266dbf;
  0x1d6b25ce7be14a23fe29fdf1c13aa74bfbded119930ae4b3fe6a0652938827abf;
  0x1e7ad969b86cf92bf68bbf801d84203bf67578edf1c72323f2b71f617a82d4a3f;
  0x1180a6ebe54bd20bf188ae28daec2543fb5cc8c78785f27bf21b02cb2dd21f9be;
  0x1e44f5182efcf2d3fb612490b5103133f2cff0b1c838d353fbcc8955593c868bf;
  0x1c332bcca8f2a60bf22b02cb2dd21f9bee54f5182efcf2d3fb612490b5103133f;
  0x14fc84c38e7f40bbf2487697fa8e63a3f91205197d4ab523f38618611fd7124bf;
  0x16caf64e24ffb563fdbcd952195be543f1fdeb993d43e4c3fb361813bcb2d7bbf;
  0x17511c32234dd92bf85d2b600734b293ffdcb4a1c43015ebf6ead0b61c62243bf;
  0x1811ff3862f77a0bf3295863dff47acbf5866c838e6b831bfe1ca1a054eeb7ebf;
  0x1d80b5aac171a53bf04a6474b3077533fe607df9da18f883f205940798dd37abf;
  0x1ca338cbc56c366bfa0120f4a52756dbfd767dd4b7b4c79bf007fafeae4b4ffbe;
  0x1117b517e2f7fa73f963b8f3fdb28963f98c5e875644377bfcec721b0bbe6aabf;
  0x1a068ba4dc25d7a3f2645a933e218843f8f06da4245c8943f7c7d8de1735e64bf;
  0x1400c90533f0d6fbf96762e401636a5bf1c60e945ea2a973f1350af6392a8833f;
  0x1e0ca1a054eeb7ebfd80b5aac171a53bf04a6474b3077533f6a7259ace839acbf;
  0x10a90daece960a53f6f724b11adb08c3fe1ca1a054eeb7ebfd60b5aac171a53bf;
  0x104a6474b3077533fdf20719476faa8bf4962226f9698adbf162fa424dd38633f;
  0x1d025ab4e8ffe8dbfac8bd125ebec81bf1cb78272ba7c5a3f417a656d4eec8c3f;
  0x1294edc048f22913f74bef447fd4146bfe4e81b8cef7688bf36522db6823a5ebf;
  0x143adba89d5cd5e3f811ff3862f77a03f3295863dff47ac3f5866c838e6b8313f;
  0x1e1ca1a054eeb7e3fd80b5aac171a533f04a6474b307753bfe607df9da18f88bf;
  0x1205940798dd37a3fca338cbc56c3663fa0120f4a52756d3fd767dd4b7b4c793f;
  0x1007fafeae4b4ff3e117b517e2f7fa7bf963b8f3fdb2896bf98c5e8756443773f;
  0x1cec721b0bbe6aa3fa068ba4dc25d7abf2645a933e21884bf8f06da4245c894bf;
  0x17c7d8de1735e643f400c90533f0d6f3f96762e401636a53f1c60e945ea2a97bf;
  0x11350af6392a883bfe0ca1a054eeb7e3fd80b5aac171a533f04a6474b307753bf;
  0x16a7259ace839ac3f0a90daece960a5bf6f724b11adb08cbfe1ca1a054eeb7e3f;
  0x1d60b5aac171a533f04a6474b307753bfdf20719476faa83f4962226f9698ad3f;
  0x1162fa424dd3863bfd025ab4e8ffe8d3fac8bd125ebec813f1cb78272ba7c5abf;
  0x1417a656d4eec8cbf294edc048f2291bf74bef447fd41463fe4e81b8cef76883f;
  0x136522db6823a5e3f43adba89d5cd5ebf05a2ae5099a1743fa8f1fe0d6616a43f;
  0x1921439d7967a85bf569dbcbd278710bfcc1c658f18c847bf60fb9e4624f8d63e;
  0x160083f9e3e4c6a3f4bee0b59dbe3953fc9bb759f0cac81bfb71a5032776c1a3f;
  0x10f5c49f22eba493f9e1614dc60822bbf8fdc37d0fbbf63bfd0bba6072b5f49bf;
  0x1182ac7c5770c8e3fe4e4374f78bd6fbf54e1195d930b92bf849811bd1e4f8e3f;
  0x1386ab787b03f0c3f1aa700376f0f303f0fa94820a3f92abffe4a4f163f4662bf;
  0x147ffee9c416c8ebf296fef65898f783f579dbcbd278710bfcd1c658f18c847bf;
  0x120fb9e4624f8d63e03ea5e088ced453f705947c399159b3f3ecbbeccbd76843f;
  0x1569dbcbd278710bfcd1c658f18c847bfc0fa9e4624f8d63efaf805ec6683403f;
  0x1ce42fd2443838abfe8d9f1022aac84bf502a1db7ac86fcbed86146f6c67448bf;
  0x15dd525c254212ebf69c974a374c347bf48344b779d13933f9ebcab65b4bf8d3f;
  0x13bcbe8dc3d99f83e8508c95677b2313fc0b16d79b717c1be05a2ae5099a174bf;
  0x1a8f1fe0d6616a4bf921439d7967a853f569dbcbd2787103fcc1c658f18c8473f;
  0x160fb9e4624f8d6be60083f9e3e4c6abf4bee0b59dbe395bfc9bb759f0cac813f;
  0x1b71a5032776c1abf0f5c49f22eba49bf9e1614dc60822b3f8fdc37d0fbbf633f;
  0x1d0bba6072b5f493f182ac7c5770c8ebfe4e4374f78bd6f3f54e1195d930b923f;
  0x1849811bd1e4f8ebf386ab787b03f0cbf1aa700376f0f30bf0fa94820a3f92a3f;
  0x1fe4a4f163f46623f47ffee9c416c8e3f296fef65898f78bf579dbcbd2787103f;
  0x1cd1c658f18c8473f20fb9e4624f8d6be03ea5e088ced45bf705947c399159bbf;
  0x13ecbbeccbd7684bf569dbcbd2787103fcd1c658f18c8473fc0fa9e4624f8d6be;
  0x1faf805ec668340bfce42fd2443838a3fe8d9f1022aac843f502a1db7ac86fc3e;
  0x1d86146f6c674483f5dd525c254212e3f69c974a374c3473f48344b779d1393bf;
  0x19ebcab65b4bf8dbf3bcbe8dc3d99f8be8508c95677b231bfc0b16d79b717c13e;
  0x128a63dcef7a204bf5f812bbb68dc713f52773fd49f4830bf024f0e447a8ada3e;
  0x1830564dca96635bf5c1be3ad7aaa03bf0dfef26df0cf1f3f46f61be35ac5983f;
  0x1cf7c33a314bf7cbfe3ed97d49b980ebf98029e901f7b7a3f786a1942772438bf;
  0x191bc0d0f45e12abf88b7833e5d96a5bf0a6d041342d5883fca0c7d99ee2e55bf;
  0x1eaa95c71bd9f8c3f261e7f4d0f05933f2169a858f930163f69c8b95c6bfc4dbf;
  0x170a44720bfec53bf13c96a4c547ad6be80878caaa98051bf9d3c1ff1c34f343f;
  0x1014f0e447a8ada3e820564dca96635bf561be3ad7aaa03bff6df477efaa81bbf;
  0x1d34eb3526a86693f75d65e312a24523f024f0e447a8ada3e820564dca96635bf;
  0x15c1be3ad7aaa03bf5358f1e023d10d3fe946630bdcd743bfe74b6a4b83d54abf;
  0x102117a26803d223f6c81953ceb296abfe993ea2979075bbf86f9dfc47b1955bf;
  0x181a2919a61158c3f85d6db0a1dfd923f09307aa1a3be12bfa43b35fcac3a6e3f;
  0x1a693829f42c73b3f28a63dcef7a2043f5f812bbb68dc71bf52773fd49f48303f;
  0x1024f0e447a8adabe830564dca966353f5c1be3ad7aaa033f0dfef26df0cf1fbf;
  0x146f61be35ac598bfcf7c33a314bf7c3fe3ed97d49b980e3f98029e901f7b7abf;
  0x1786a19427724383f91bc0d0f45e12a3f88b7833e5d96a53f0a6d041342d588bf;
  0x1ca0c7d99ee2e553feaa95c71bd9f8cbf261e7f4d0f0593bf2169a858f93016bf;
  0x169c8b95c6bfc4d3f70a44720bfec533f13c96a4c547ad63e80878caaa980513f;
  0x19d3c1ff1c34f34bf014f0e447a8adabe820564dca966353f561be3ad7aaa033f;
  0x1f6df477efaa81b3fd34eb3526a8669bf75d65e312a2452bf024f0e447a8adabe;
  0x1820564dca966353f5c1be3ad7aaa033f5358f1e023d10dbfe946630bdcd7433f;
  0x1e74b6a4b83d54a3f02117a26803d22bf6c81953ceb296a3fe993ea2979075b3f;
  0x186f9dfc47b19553f81a2919a61158cbf85d6db0a1dfd92bf09307aa1a3be123f;
  0x1a43b35fcac3a6ebfa693829f42c73bbf]%N.
Definition file_190 : list N := [0x1934e554d5059010076007b276465736372273a205b282773616d706c65272c20;
  0x1273c693427292c202827737472756374757265272c20273c693427292c202827;
  0x161746f6d272c20273c693427295d2c2027666f727472616e5f6f72646572273a;
  0x12046616c73652c20277368617065273a202831382c292c207d2020202020200a;
  0x10000000000000000000000000000000000000000010000000100000000000000;
  0x10000000001000000000000000200000002000000000000000000000002000000;
  0x10000000003000000030000000100000000000000030000000100000001000000;
  0x10400000001000000000000000400000001000000020000000500000001000000;
  0x10000000005000000010000000300000006000000020000000000000006000000;
  0x10200000001000000070000000200000000000000070000000200000002000000;
  0x1080000000200000000000000080000000200000003000000]%N.
Definition file_191 : list N := [0x1934e554d5059010076007b276465736372273a205b28276772616469656e745f;
  0x1646972656374696f6e272c20273c693427295d2c2027666f727472616e5f6f72;
  0x1646572273a2046616c73652c20277368617065273a2028332c292c207d202020;
  0x1202020202020202020202020202020202020202020202020202020202020200a;
  0x1000000000100000002000000]%N.
Definition file_192 : list N := [0x1934e554d5059010076007b276465736372273a205b282773706865726963616c;
  0x15f6861726d6f6e6963735f6d272c20273c693427295d2c2027666f727472616e;
  0x15f6f72646572273a2046616c73652c20277368617065273a2028352c292c207d;
  0x1202020202020202020202020202020202020202020202020202020202020200a;
  0x1feffffffffffffff000000000100000002000000]%N.
Definition file_193 : list N := [0x1934e554d5059010076007b276465736372273a20273c6638272c2027666f7274;
  0x172616e5f6f72646572273a2046616c73652c20277368617065273a2028332c20;
  0x1352c2033292c207d202020202020202020202020202020202020202020202020;
  0x1202020202020202020202020202020202020202020202020202020202020200a;
  0x192c80b1cc62a903f0c9e312c3872843fb6b99eafb78b713f90d4a2ec41103fbf;
  0x1850b4315fc7a46bf95bbf5370adc393f1e9fefe772f2a5bfa6bbafb4c839a7bf;
  0x1b2ecb65183db92bf1cec411bdb7657bf17b17f8df726513fc1146e481f9e513f;
  0x1e344af927f3bb03ff78cc4969d039fbfe082936d59bf89bf5565715030c4793f;
  0x1d899226e4325653faf0a54b2ea39773ff2115d017572803f6a551802942d903f;
  0x1e0489912e10547bf818f13bdd39d6bbfd7babfd20d709dbf28ed5414375297bf;
  0x170a61e3e6a20a93f12f898ffd28f963f3b84bc8cf5e786bf76f53c619350a03f;
  0x1fe0b32ea539699bf9bef7ff79c7082bf0788dbdf0e666a3f7fa4352c9f4f973f;
  0x14018451b380a7c3ff528b1adcaa3623f340272a8622d843fefadcc69a66a603f;
  0x1d58f25caaadd98bfaacb6477772ea4bf32f516f7c6b18abf7e3fcc3706c1a83f;
  0x14c86f8a7036a67bf9c33cb01928683bf8a37b4eb750dac3f1886c285d4e193bf;
  0x166efa42499f88ebf]%N.
Definition file_194 : list N := [0x1934e554d5059010076007b276465736372273a205b2827737472756374757265;
  0x1272c20273c693427292c20282763656e746572272c20273c693427295d2c2027;
  0x1666f727472616e5f6f72646572273a2046616c73652c20277368617065273a20;
  0x128332c292c207d2020202020202020202020202020202020202020202020200a;
  0x1000000000000000001000000000000000200000000000000]%N.
Definition file_195 : list N := [0x1934e554d5059010076007b276465736372273a205b282773706865726963616c;
  0x15f6861726d6f6e6963735f6d272c20273c693427295d2c2027666f727472616e;
  0x15f6f72646572273a2046616c73652c20277368617065273a2028352c292c207d;
  0x1202020202020202020202020202020202020202020202020202020202020200a;
  0x1feffffffffffffff000000000100000002000000]%N.
Definition file_196 : list N := [0x1934e554d5059010076007b276465736372273a205b28276e272c20273c693427;
  0x1295d2c2027666f727472616e5f6f72646572273a2046616c73652c2027736861;
  0x17065273a2028332c292c207d2020202020202020202020202020202020202020;
  0x1202020202020202020202020202020202020202020202020202020202020200a;
  0x1000000000100000002000000]%N.
Definition file_197 : list N := [0x1934e554d5059010076007b276465736372273a20273c6638272c2027666f7274;
  0x172616e5f6f72646572273a2046616c73652c20277368617065273a202831382c;
  0x120332c20352c2033292c207d2020202020202020202020202020202020202020;
  0x1202020202020202020202020202020202020202020202020202020202020200a;
  0x184d6057f053b993f80c9603c2e0bc0bfba57af3ae2e8933f0a2d249df55049bf;
  0x1595257331fc159bfaa99611e027743bf42ff487fef0e9ebfb09d3375ea2eb23f;
  0x142783f72d712843f0571d6c6af0b66bfa47f545584ae46bf496792f75cee583f;
  0x1457808d78453ab3f23fcc4c858c7b8bf572130b38539913f91d68197592dc3bf;
  0x136d5830bb1619ebf687b3a03007458bf3c73cf184c67313fc430f5863427123f;
  0x17dbf32fdeade593f5ef7040eed318dbf2281d9be3199943fabe1c0c61be36ebf;
  0x1092d249df55049bf585257331fc159bfa899611e027743bf00fa1411c3337d3f;
  0x11ed530608bb3b2bfe35b24d615fca33ffe2c249df55049bf525257331fc159bf;
  0x1b399611e027743bf2281967e1d6a7dbfbcb51e9fd3dd91bf52148ce139bf9abf;
  0x1be3797d8e120693f4210840e159f653f6a3b98cce8ef1b3fd12deeff78dac2bf;
  0x1b8b729a401276cbfc19828df518aa03f665ff049993858bf982533e66af338bf;
  0x1500a0bb4c011febee46593dfa4a1a0bf964cd1efbc83923fbd5fd623ba5c503f;
  0x19628664b2e14403f5e615880cab822bf39ad84acb2b9f8be6f1f0e910a1fa23f;
  0x16968379fcdd8a9bfd0ddce4bc61a4e3ff6c64882ced8643f0adc5b31183557bf;
  0x129a3f9f66b8214bfe132d0132233acbf39d7597f90ebb53feb92e870f4f85ebf;
  0x15cb9275670d8c13f34b172a293b49d3fb9a151b45c0387bf8229728a922d56bf;
  0x1e48f53236a7532bf35981e69ad991c3f5ad12cfb80f7713f0cecefe668a079bf;
  0x15844827217d91d3f9728664b2e14403f5d615880cab822bf3aad84acb2b9f8be;
  0x1a70e71dfb1fba5bffa6075972fbb6f3fab0c00824682653f9728664b2e14403f;
  0x15c615880cab822bf3aad84acb2b9f8be7e5d84c1be7b923fc6f69ed2ca9c6b3f;
  0x1645edebba66c57bff7cab1807be266bf888fe00dfa47013f57c2eb2c4b43283f;
  0x145cd67596ba4c23f9091ac478ed99b3f91d760db32a087bfb7db81c797ef5f3f;
  0x110f886a8bd9742bfb01d0cb00c8e18bf0577c19cdf40643f24ed72f53432a13f;
  0x19ee9e6a5f54b8a3f042d732f08f05b3f00384889febd733f7df191a0833747bf;
  0x12a18c009bac740bf004c3febb019ba3e25b58fb073ba4f3f85604c971c29523f;
  0x112c9c180a3d68e3faa126bb05594773fc732c600e0a061bf36577a61e39881bf;
  0x16048280497283bbfd686d771f5f76c3fdcf335db47a97e3f197ea18ea6c166bf;
  0x1319f3456653491bf426258c6bf35a2bfce467a7fcc078b3fde647e858b3a763f;
  0x100eae1669d49f1be18c7eeeee60385bf032d732f08f05b3f00384889febd733f;
  0x17cf191a0833747bf2dd5a048d28d913fc7a38872cc61963f3c61b6db837e95bf;
  0x1012d732f08f05b3fff374889febd733f75f191a0833747bfca639b2e899675bf;
  0x1bd37d63e42f6873fbdb92aec5c71903f52b8d9679ef8723f7430fa1b86819b3f;
  0x1caf80180d385753f9d0f0b09eb4b403f2dd4285dae1652bf7c371ff232d358bf;
  0x13865a91ff756823f86d488a668eb993fee7a894e437b6ebff6453ccb30f6663f;
  0x1e53d56df1485a13f57491741d7ac893f02680e081df059bf375310b2649271bf;
  0x1cd9cb8198264453fdf4bef9439f23abfc4d51c23f054233f4b20baafb7d14a3f;
  0x138289410d07655bfb6cc3413906090bf1567ae5a280078bf0c2cf96742b45fbf;
  0x11e1d64c0dd6d7ebfe4df50896f5c35bfd0be02430aad693f3f14400976d6793f;
  0x17028cc93a4cb63bf4b02e2867346923fad2e92e8ee63a23fb0cb42aced2d8cbf;
  0x1c1af04757984743ff8a7aa227b705dbfc58c3bf7b86b84bf02680e081df059bf;
  0x1375310b2649271bfcb9cb8198264453f9fa8d0b299d4913fa84cb56d3c0e953f;
  0x1d15b9597c75f95bf05680e081df059bf385310b2649271bfcd9cb8198264453f;
  0x1464989eec04d78bf0689e3742898853f481a920cdc86903fa3a64c4949ce73bf;
  0x107ff5ca876219cbf4c267e23e61976bf544c9bff34eb3f3f76ed53bf495c4cbf;
  0x15848a94682b455bfce44eb87e09d83bf08952cf236949abf2798eb7ed92d703f;
  0x138cb0ead58b25cbfe3ac810ebf317a3f21c2280dba10a4bf907e88f7f369003f;
  0x17f3f37798cf81dbf2b8dec4ce8cc463fa9ebfbea409850bf5a20dd15704b6e3f;
  0x1220280efa83997bf453993daaeb001bf77bce65dc825203f5cf364fa1bbd48bf;
  0x1c603a51f1e03213f4dfc91484ff93ebf2cd0e23866096a3fad1596bfba59593f;
  0x1bd891df3852377bf4cf649b9e7c1a13fe9970df7a8e4fbbe706f4790a975193f;
  0x1213435efdd8943bf314df95ba99e4d3f138e125b4c096bbf794c81fb2bba943f;
  0x1907e88f7f369003f7f3f37798cf81dbf2a8dec4ce8cc463f8607a7db23b330bf;
  0x114bc124b68884e3f2351f962d11f76bf907e88f7f369003f813f37798cf81dbf;
  0x12b8dec4ce8cc463f93f7616a7513123f99b2f61b329530bf2ae9113bf6d0543f;
  0x1a3f01357cab0f43e50584fdba6e512bf929be1b9f35b3c3f5cb19955264114bf;
  0x10cb7a13dd194323f88d38650325357bf786a63f8d2f2cdbeec2518ae9c57eb3e;
  0x1e1fcbe2cf8cc14bf5ea9c8f71eb2713f121f01c358eda03fba4b69d880267bbf;
  0x11bcaef0d47d9203f593f16ee5949553fd02caf49e2a2f7bec30b07766bce70bf;
  0x1a23025e08efa98bfcd00ff510bd6843f6dd6dee4ed03393f8ee3c33ec3ed673f;
  0x17703c623bb3043bf2611a28f5132773f7a0ea583ef529c3f8d0d08190fc991bf;
  0x1ddfce14173e8613f58ee134dc2a77ebf34bfe9b3372991bf2a1745d4f126123f;
  0x1529bc3febc122fbfc1cfcbeb1a6541bf91839414041a58bfc5a26dc027e981bf;
  0x130bbcbc772e16d3f1bcaef0d47d9203f583f16ee5949553fd02caf49e2a2f7be;
  0x1f8d19fe938ad583f06223e6b7b729a3fdc5f053e2df7763f1acaef0d47d9203f;
  0x1593f16ee5949553fc02caf49e2a2f7becb050300ec71313f6a5d44994c3580bf;
  0x178e18f3c103d78bfd800b735458e17bf26a3ca5c834d60bfbc59dda5341c43bf;
  0x1b70c3bc84554483fc7b45024b49a96bf83d00bd8dbe690bfa290cd6f317a243f;
  0x1421db00eefde593f703ba37f03bafcbe667fe09a59818b3f9c07a581743ababf;
  0x1c6dbc4e826648c3f2ee284dc3cbf8a3f881b4d23794244bfe4d7d84a9c12733f;
  0x1b6901c36971ba23f3a182837b3cda53f8b735cf8ab1e883f05b97824cfbfb43f;
  0x19d3d98067e38a3bf90ef090c93e391bf6c1043c2fcb39d3f98d966f23c89aebf;
  0x1b4a8a05ea6c0773f0ad212bb2eacb4bf3f174bd0d85dacbf8dd75fad410a7bbf;
  0x15ef13a49526aa3bf3c5258591fdc98bf4d1f6093ee0b82bf7a8a5c4b222d71bf;
  0x18ccf0d0de2a1903f1ea0797dceee6cbf2ee284dc3cbf8a3f901b4d23794244bf;
  0x1e3d7d84a9c12733ff8cd059712cd7ebfc8aedba4c9a8adbfe625d083593ea23f;
  0x12ee284dc3cbf8a3f981b4d23794244bfe4d7d84a9c12733f0156f74adb078c3f;
  0x1363a9e1760c990bff88971773e8e9cbf445785198db6afbfd80fdd456c6fa7bf;
  0x1f4fc63d06242583fbc63a21ed47a833fde60f5014c23a5bf5e53035c0511943f;
  0x1b5311649f874ae3f0052b067b9297bbfd6bfb38437bb71bf378ab445c62d8dbf;
  0x19f0a9b5990d97c3ff1b2945cc672593f7cb0eebae6628ebfa889bdfc1adb553f;
  0x1b6ed3672a0a0583f898519da3365a1bf87b154d893059bbf4a36ca6d8199673f;
  0x18e5756f5d72eb5bfc1dc4885b5f1a43f29f636818a79823f76f7f6eaff5c99bf;
  0x115a9ddf92940ab3f8d26f7c8f2846c3f40e1ba74f749b23f51453d7861d2a63f;
  0x180c4937400aa79bfff7472402101a83f2575fe7b2ff49d3f825a910b99d770bf;
  0x1f9a713791b736fbf25834636456d68bfa19365435455353f7cb0eebae6628ebf;
  0x1a889bdfc1adb553fb6ed3672a0a0583fd47d96ed60fd93bff5a9b24ffe6970bf;
  0x1f28f55de5a9a5e3f7cb0eebae6628ebfa489bdfc1adb553fb6ed3672a0a0583f;
  0x13c7da9eafd8956bf2c09eaf7101c783fcb1ba4a9fa54303fd93bb2fcd9a5af3f;
  0x1961b9e70c6f0a03f5edb3cc3ffa176bfd0eea168f5ee88bf346e3e31bfabaa3f;
  0x189ac84b22311623f08c9c74ab497b0bfb888261d77de773f6ba3ff0657e57a3f;
  0x189791b65ec36633f88894844d9df9f3f723864fc2617883fc65eae8ab726673f;
  0x1f92492b48bfb7e3f6a0ab626870c53bf4ad7d9becf4a12bf480e1ebfd7445c3f;
  0x1504d4c305884503fcca9f3440525583f48b9954cc006943f76877d1c85457e3f;
  0x1cc1dcb1fee4f65bfb0a47a6c2d0b85bf4843d87ffc8344bfef8d0c29f6d0703f;
  0x12e6ba6e68c717f3fd24d4ef3b7bb6bbfbf90845c6ad193bf52346ef33687a2bf;
  0x18c89a7338657903f865b4f1eda27413fd2d0413f31838abf1355dac93efb7ebf;
  0x1c65eae8ab726673ffa2492b48bfb7e3f6a0ab626870c53bfe83dae8dc7e98b3f;
  0x151a211a2afd1873ff7aaf6726dc692bfc75eae8ab726673ffb2492b48bfb7e3f;
  0x16b0ab626870c53bf7c7993e19d4085bf14251db700f767bf7173097aac67913f;
  0x1b95b2019f1f26c3fc9d0194d61259c3fcf3e570201de7f3f243788830ea9563f;
  0x19803521b728d393f67007484dc8e62bf5dcbd3b0ba53853ff810b919978a9c3f;
  0x15e4f10d9498c71bf337cdc9dfbc34e3f8ef2320f6ffb9e3f1f6fc347a2fb8d3f;
  0x150f3dfb4feb850bf389502f1197770bf58016bbd3f783c3feabd4e9c724c44bf;
  0x1b44465c0541f50bf56a708bb64d3513f0c19479d0fad34bf696179ac53d284bf;
  0x132617f926a2674bf9de3d73f50915abfb907c0af363e82bff680fc0aca2b48bf;
  0x112f0a9e6b4ed673f5f1b91ce8465823f4c4f336d86e165bf8ed68abb7f2c853f;
  0x1783c81ae5847a03f1d4e9d9fa95c83bfdebb3bd911ba7a3f9a83680a623a853f;
  0x1db52d4de897887bf50f3dfb4feb850bf389502f1197770bf58016bbd3f783c3f;
  0x142094f404cf48d3f7293d38371ca9f3f847fb1e372c695bf50f3dfb4feb850bf;
  0x1379502f1197770bf5a016bbd3f783c3fba27c228928a63bf72627ada4d93913f;
  0x1c46c74fdb770903fd39c974a2bd067bfe6439705854696bf1f669f99b1d572bf;
  0x102b64ab7c0ae2d3f1848344b4eb25abf741bbb5beaf858bf560f7538e8d175bf;
  0x1d2949f99ed7b95bf0c3bbbace892623fc8fc3f3c22bf5cbfd9a0dd9f19357a3f;
  0x16beac44e3882a4bf14af226a51432bbf6691288a54dc483fe62f073d5d4f73bf;
  0x106e1a9ab166650bfb6cfb3ff41e66d3fa5b0ac63df6c97bfd82b0f7396f32d3f;
  0x1e0993eea4e4e4bbf333178ac475e753f95f6f3b2fc72253f2637e7f4b48043bf;
  0x142d087185d8b703f7673a9a5e1d1583f13e0f82033a076bfa320f65da5bfa13f;
  0x1b4f06b71de9c263ff995195a229d44bf031a64589b2b703f796a15b3d3ad4c3f;
  0x11f5e96fd12256abfed1581afd07b943f14af226a51432bbf6691288a54dc483f;
  0x1e52f073d5d4f73bfb213de1cd6cb32bf873d5376262a513fca3417c0a17179bf;
  0x115af226a51432bbf6591288a54dc483fe62f073d5d4f73bfe502d4a11641093f;
  0x18947b55be93927bffd1fb83fb7504a3fbf21cf9dad1021bfe9ee9c4441233f3f;
  0x16d8d368284d167bff270e10288e10cbf9aa477cfcb8f2a3f04e9c8b02a184ebf;
  0x187ec8c06e05afd3e950f9440b2c41abfb65c5050b1ca443fcebb890c9e5a47bf;
  0x17977ba34df4a9c3f58805beb3de35cbfdaf0af00468a273fe7609aef738e74bf;
  0x1328744e44a7e47bfabdf75d54592333f7c85dd05f31495bf2f833fac7513793f;
  0x10c658f2d0028343f1da4d0f8256b88bfccd31bbaa7ee483f1a788f5d046827bf;
  0x1f4f0d6a6ddd29a3fdab92405427c88bf3d4e99fd5a39493fe02613268a0a34bf;
  0x19f265f67921e90bfb6abb9922cad1fbf00f53209f42a093f45ea13952a3e643f;
  0x11c76821f1d7a1c3f1d3396b0bdac7ebfcd330a88433e623fdaf0af00468a273f;
  0x1e7609aef738e74bf328744e44a7e47bf743e67669f664ebf9a6f622127a6923f;
  0x1c3a55022e005813fdaf0af00468a273fe7609aef738e74bf368744e44a7e47bf;
  0x1c52101f0b86c3a3fa5dadcb9f01c6dbfb09ec292fe7779bfe4b0d03b493438bf;
  0x18c9fa37789877a3f4f940ecfb3e36e3f4cd6a1f52f29523f061bd6b32d0284bf;
  0x1e36f8346fe8091bffacf3d524b132c3f12d7d9ec508478bfa4ea194d01054cbf;
  0x1f232715434a78bbfbeb1d3afe5b5bbbf75d6f7471a44933f521d0f521eec5e3f;
  0x1b8a5c7f4690165bfcef455d7bf91763f0ab410f5bf6e973f6e7ac2fa04cfa73f;
  0x163ee13fde4b8623f8b13ba8db70eb63ff8ab188ee1aba6bf1e8ff27ec6ae90bf;
  0x18089ded4b81f983faa16896169b2b5bf8d2e2777b676963fdcf5bcefa5dcc0bf;
  0x1a6669c3f949c8bbf186f3a866d966abf49bd65fdef2fa8bfd920d7a48dfd88bf;
  0x1cdbde9b87b4582bf0fd798b66c0a62bf76e7702a226f993fd7dff9f2675a74bf;
  0x1501d0f521eec5e3fbba5c7f4690165bfd0f455d7bf91763f26911d9c5cb4a0bf;
  0x1eb643b8db033b1bf1a87ed69e842a33f541d0f521eec5e3fb6a5c7f4690165bf;
  0x1d0f455d7bf91763f2a6a77f4675a8f3f9e3de3144526603f6f8d3994e2119cbf;
  0x1ee4257bf91c8b5bfb10dc6b3de1c96bffc9631b6f75c633f8d9ecebcd48bb1bf;
  0x1861ed35d2b1e92bfdc3790f39931973f187936c65713b13fc2e3e2247e6c90bf;
  0x1d0c0f68922306ebf3eda363379b46ebf21ca75567503623f731cc36a0950233f;
  0x1bb10bd0fa23265bfea3453edd933463f72d362d31f12233f1e1f825e9d7489bf;
  0x12f0c73d14317a1bfc58c7b8e555b653f5066ca31930eb5bf6c4bcc29eab4a83f;
  0x1ac791e50117d6a3fd6ddb064bffda1bfd4e96cdb8999b23f1ac6a6a3e8c655bf;
  0x182b16f1b97f5bf3f38e61903bc809f3f507b2df7162585bfad3aca29aae9aa3f;
  0x165637fda42878a3fd87bb30054ce71bf2c8d9513f4412fbfb986570786fc44bf;
  0x1b12ba26282390a3fbb10bd0fa23265bfec3453edd933463f72d362d31f12233f;
  0x12305cebbe66676bf48d0e337bb222c3f76c209ab514f383fba10bd0fa23265bf;
  0x1f03453edd933463f70d362d31f12233f843e03422f6e553fa79ca7b4aaab4c3f;
  0x1b54d160291f321bfceb1400449fdb53fea40fc2d3d1e813f6c725000535d7abf;
  0x14a840af6d373b13f465ff1594359a73fdac02a690e3d7dbfd3c15723b441b1bf;
  0x195722c731913923faeb8c2a8dc0c6f3fec6cc9449189653faac5d6a3974c9f3f;
  0x1e402f6aa9b6f863f55021cd2a4fb643f3974f8a4870b7b3f4251149f232251bf;
  0x1c43512434dc3323f42333548b4f5623fb42f0379054a463fec113560f3ee5f3f;
  0x17acbcdb51f34973fecb0420004a2803f618db55975cf60bf6430105fe46c80bf;
  0x16a4a9ba191c941bfcd821c187975693f320625d359a1753fa561d9163bb465bf;
  0x1f73190f2f88d94bffe47fb3ea876a1bf18420473e685913feff90e42066f64bf;
  0x17909ef42eaa594bf883fdf09214678bf56021cd2a4fb643f3a74f8a4870b7b3f;
  0x14351149f232251bf57b9d803ba38883f3a9492dda2707b3f0ac85b95f54291bf;
  0x154021cd2a4fb643f3874f8a4870b7b3f4351149f232251bfe21f234e6faf8bbf;
  0x1232a599414a686bfb9d7e96ef7f7913f6a34e97a9aad603f1c73d7fcfe399a3f;
  0x1ecf5ce24af62833f44783981eb6b593fc7dad4d6fdcb543f11389de2d77f60bf;
  0x116839328e88c863fba2de219b8109d3f4ad3c5e5c86972bf6c1ecb833574683f;
  0x1f7e3e5885f67a23f43f94292e2d48a3f6d59ef50617f413f42191e0a3d59583f;
  0x13acf643d00012dbfe48fdd46849b313fe3e63ddb40cc2c3ff2dee19dda3f39bf;
  0x1362db1ce4d5151bf4522c084ec108abf37ea69e5590073bfe87f79f6d5f84b3f;
  0x1f038ca6540f46a3f6060a0fc17a61f3fb12d5d20071057bfb7067ce4bc9968bf;
  0x1a6af8d8cb954513f9368f695cfd88e3f2235626eb473a03ff0cd5ffa3f2e87bf;
  0x1f37766a1b0a0803f034d73b803327b3f143c180c2ad887bf6d59ef50617f413f;
  0x143191e0a3d59583f3ecf643d00012dbf6e8176322533943f88bdf262cdea9b3f;
  0x12f054930a30d97bf6c59ef50617f413f42191e0a3d59583f36cf643d00012dbf;
  0x1dd3fe37ebdf165bf3a2150b595aa943f80f59ff56fa38f3fe4068bce3c6673bf;
  0x1e894c0da891199bfc35a05e769f26fbf46d7136bc43c17bfb6260e8855e2453f;
  0x19ecb507d59c0403f1d47e6a77c8180bfb53d928feff796bfa8b1550f265c6b3f;
  0x1e4fe30a54f8859bf60d959420269773fe902ba085d39a0bf771f0ce2902431bf;
  0x13a511a8fef6f4f3fdd438f5c2daf75bfa960c571b9a64cbfbe5495fc0a456a3f;
  0x1dde0c093bd3592bf47fe96ba50dd303f3bc4d82deaec4ebfe8d50275b26e753f;
  0x1ee7ee4d532bdfbbea847b5b3ee80193fa0da78df043439bfc4d049ff950a593f;
  0x15048474bb9f576bfe01537aa67d49f3fa044d1cf363e303f9ec627f425c94dbf;
  0x1e526fb7072a5743f2025a16bf9224c3f283034863ecc69bf0d24190301e2913f;
  0x1761f0ce2902431bf3a511a8fef6f4f3fdd438f5c2daf75bf0c4dcded6add15bf;
  0x1599abbcdbb10343fc02f00ea083b59bf771f0ce2902431bf3a511a8fef6f4f3f;
  0x1dd438f5c2daf75bfdcfe07593cbee93e4014c3ab7abd07bfa8fd1ee15c4c1a3f;
  0x119d1edfa8aa224bf9ca0f69416ec423f7339a501c2de69bfe85a1737c736eabe;
  0x1bc87868ca42c083f884b3d4281c71abfdb34b7583de3d33ebbd90f9b433cf2be;
  0x148e0f5800028193f88e6bfe3ea058b3fe2842367c850a13fdfa9ebcf7e3487bf;
  0x1afd26023587a61bf73d8a91c9b557dbfe49973826bab4d3f1871d2806dc184bf;
  0x14ca9eebc725093bfecbefc01cbcb893fc73c052f84b774bf3a66ccb2a68c8abf;
  0x118b29cc330ca713ff0217779ba398a3f24cf8b4ce721913fcea45e64d14694bf;
  0x17d72b4f9d7036e3f0e4367d144948cbf1bb9c6b3d24d90bfa845688e815b42bf;
  0x13715faafb17a613f1bc874547ef1633fa17f5053f78e70bf0abc755233d17ebf;
  0x1fcc2df036694743fafd26023587a61bf72d8a91c9b557dbfe49973826bab4d3f;
  0x11c4be67638237b3f86bd77daa1bfa03fb2d7eccdd9e9673fb0d26023587a61bf;
  0x173d8a91c9b557dbfe69973826bab4d3ffa8344bed7573cbf6f9e1e4ca56b88bf;
  0x1b2dd7441c8b876bf68daad341fd2603f06b4128cd49b873fc514bc3f3b485b3f;
  0x16e7b13fb7fc351bf2ca20332449c9ebf6b53344f2d7b8cbf113438fd136c62bf;
  0x188ebca1e53eb7ebf2e388965c6454f3f]%N.
Definition file_198 : list N := [0x1934e554d5059010076007b276465736372273a205b282773616d706c65272c20;
  0x1273c693427292c202827737472756374757265272c20273c693427292c202827;
  0x161746f6d272c20273c693427295d2c2027666f727472616e5f6f72646572273a;
  0x12046616c73652c20277368617065273a202831382c292c207d2020202020200a;
  0x10000000000000000000000000000000000000000040000000000000000000000;
  0x10500000000000000000000000600000000000000000000000700000000000000;
  0x10000000009000000010000000100000000000000010000000100000004000000;
  0x10100000001000000050000000100000001000000060000000100000001000000;
  0x10700000001000000010000000900000002000000020000000000000002000000;
  0x10200000004000000020000000200000005000000020000000200000006000000;
  0x1020000000200000007000000020000000200000009000000]%N.
Definition file_199 : list N := [0x1934e554d5059010076007b276465736372273a205b28276772616469656e745f;
  0x1646972656374696f6e272c20273c693427295d2c2027666f727472616e5f6f72;
  0x1646572273a2046616c73652c20277368617065273a2028332c292c207d202020;
  0x1202020202020202020202020202020202020202020202020202020202020200a;
  0x1000000000100000002000000]%N.
Definition file_200 : list N := [0x1934e554d5059010076007b276465736372273a205b282773706865726963616c;
  0x15f6861726d6f6e6963735f6d272c20273c693427295d2c2027666f727472616e;
  0x15f6f72646572273a2046616c73652c20277368617065273a2028352c292c207d;
  0x1202020202020202020202020202020202020202020202020202020202020200a;
  0x1feffffffffffffff000000000100000002000000]%N.
Definition file_201 : list N := [0x1934e554d5059010076007b276465736372273a20273c6638272c2027666f7274;
  0x172616e5f6f72646572273a2046616c73652c20277368617065273a2028332c20;
  0x1352c2033292c207d202020202020202020202020202020202020202020202020;
  0x1202020202020202020202020202020202020202020202020202020202020200a;
  0x19095b56921959abfd01a14b4c878abbfe482eef6bf5895bfea7cf4bd3fce59bf;
  0x1df9b561052735cbf85c6f3efc907193f60350980280b95bf09316a463fa2a6bf;
  0x1421ad9f581d19abffa5380754f58453f6bc792c3381f4a3f5c9aab5e81f42a3f;
  0x16e4e307564259dbfa2f42466abc883bfb43ee06747c3a23f628afd98035997bf;
  0x10ca840e6090badbf23765b9b1e7994bf358fcbe3dc06763fffe29b66a5bc7f3f;
  0x16c59c168f687403f13e8e1b7670193bf2d73202a541ea8bf1bbb3219622e9abf;
  0x1e50c0566854f60bf3bb5d504c00374bfeb00f041fe4769bfdc59c0e0496b9bbf;
  0x11d8733ae8d1683bf6408f421654aa23f6279a0d4755e93bf145dfff6e53ea9bf;
  0x18111e56dfa1495bf9f612d835f9b7f3fa06f480043ca823fa0a56eb95a2fe6be;
  0x1cc182e11c91394bfe165eb915c71a9bf3c5abd27321899bf2bcacc7bae6b60bf;
  0x14eee1921de1a76bf84d7b53363a46bbf322654b5ec43a1bf50d0759f040981bf;
  0x19994f43759b9a03f]%N.
Definition file_202 : list N := [0x1934e554d5059010076007b276465736372273a205b2827737472756374757265;
  0x1272c20273c693427292c20282763656e746572272c20273c693427295d2c2027;
  0x1666f727472616e5f6f72646572273a2046616c73652c20277368617065273a20;
  0x128332c292c207d2020202020202020202020202020202020202020202020200a;
  0x1000000000000000001000000000000000200000000000000]%N.
Definition file_203 : list N := [0x1934e554d5059010076007b276465736372273a205b282773706865726963616c;
  0x15f6861726d6f6e6963735f6d272c20273c693427295d2c2027666f727472616e;
  0x15f6f72646572273a2046616c73652c20277368617065273a2028352c292c207d;
  0x1202020202020202020202020202020202020202020202020202020202020200a;
  0x1feffffffffffffff000000000100000002000000]%N.
Definition file_204 : list N := [0x1934e554d5059010076007b276465736372273a205b28276e272c20273c693427;
  0x1295d2c2027666f727472616e5f6f72646572273a2046616c73652c2027736861;
  0x17065273a2028332c292c207d2020202020202020202020202020202020202020;
  0x1202020202020202020202020202020202020202020202020202020202020200a;
  0x1000000000100000002000000]%N.
Definition file_205 : list N := [0x1934e554d5059010076007b276465736372273a20273c6638272c2027666f7274;
  0x172616e5f6f72646572273a2046616c73652c20277368617065273a202831322c;
  0x120332c20352c2033292c207d2020202020202020202020202020202020202020;
  0x1202020202020202020202020202020202020202020202020202020202020200a;
  0x132712284c89c84bfe69ba8a63b927dbfb40d61bab2cf86bf1cb4dc0dc48e613f;
  0x1cefddfed8fc7323f99f3027acd9135bf705c97b8968a923fd88620f51b21a13f;
  0x1fb31ce5dddbf8ebf9ae5ebcf4825383f4ab38c3190de4c3fa883f00a97fde13e;
  0x186dd88f6c924ae3f44e0e09e6c578bbfdb168de7144a8a3fa899e1941328b2bf;
  0x152be1b146861693f8773e1f40072a73f3e60bf0e1fde6fbf81c08e25c847453f;
  0x1ed3c0f9fa5af4a3faa317d0f8c67a6bf575e925ab9077c3f6fb1dd9b2c688e3f;
  0x11cb4dc0dc48e613fd2fddfed8fc7323f98f3027acd9135bf19142c230897a2bf;
  0x1d3f03e59346eb23f0ad586bfb4e9963f1db4dc0dc48e613fd2fddfed8fc7323f;
  0x19af3027acd9135bff905154c6c5ea9bf5ca636948c3eb1bf3a5132c60cf17fbf;
  0x1de6b43836e97693f7cbf4f0eb7e35f3fce6a68f2f8c42bbf33967bd19ac6933f;
  0x1088468ba766ba83fdc0f4f20e8b3a03f796e5e146471613f24cbf72f205b1e3f;
  0x1e07ae342af673abfe262cf6594be8a3f2003f43365e6a93fd704e28d1bef683f;
  0x1b7d7c19ef29b61bf284360f7ff2035bf97d53a64e709363f77f4a524a74292bf;
  0x15d87060b62b5823f4e3a6285a07c703f42c0d9c0bdc734bf2d9d3781c41f54bf;
  0x159752e7da05f13bf7ecac2175f7cadbf6cf1c75167ca9dbfe0236d2d83237c3f;
  0x1a88c7111353fb13fe2167f08833285bfbec5624ea5f789bf49a5c75284db6f3f;
  0x1afb3132ec59343bf5450f70893fb47bfec611a4485b4a53f5c1375f3e43c96bf;
  0x1bfe557e0d79883bfb7d7c19ef29b61bf2c4360f7ff2035bf96d53a64e709363f;
  0x1aaee6d687197a23fd267fa1cd41ba6bf956cb87d350d86bfb8d7c19ef29b61bf;
  0x12c4360f7ff2035bf98d53a64e709363ff19782bb60b0a93fec3fbb6308c0ac3f;
  0x17bf4f62bc4a166bf72aa5031d8c269bffede984cad105ebf383e59830be5363f;
  0x1c2033e6aa69c95bf0ed5bea3ee2f98bfbc9472e53e0a533faa6e71053e3a61bf;
  0x1aa865bd4c3ab34bfaa8151f99e8f353f944b7ff7e23d6cbf71b3cebc7cfda3bf;
  0x1c687606ada95813f80170f86ccb4cd3e48188eeb8d21103f00562b98298eb33e;
  0x115871998088263bfd9d2f7da119296bfca4b9a2c7ad9803f8eef2321e3a3dcbe;
  0x1213c918daf4514bf88223dbf5dd5f13e031c230e6f24633f50193c3fef1e7d3f;
  0x196c5d45eb1638ebfd0d0b1f4323c663fac5ab8ea04ff8b3fc999b49d8a228ebf;
  0x1615549fcdb16ccbe9201f7c6fcaef1be5a2c2a43d308f33eef6da4281c4d583f;
  0x1fb31115fca1d8c3feba4dbcf55fd74bf82170f86ccb4cd3e48188eeb8d21103f;
  0x1f0552b98298eb33e7679fa1ec3c133bf624d71cd22ba9abf75f3c6e0cb1c84bf;
  0x184170f86ccb4cd3e49188eeb8d21103ff0552b98298eb33e4f8c02ab1be842bf;
  0x1c46a80014331863f4b357a6d3485833ff048622f3c14b03e8922eb169edf103f;
  0x17678225cf4a4f73ec7257416da5a4e3f377bfcc8aad091bfdaa7979412578fbf;
  0x1c289fe45ea30bdbe7ef7a6b7e0b3ffbe209dd03e5837a3be9f265c869bb53d3f;
  0x192e1811208b571bf7bb47f37e91e40bf6e557f0e7705c73e7a0b341637effabe;
  0x17caa017a0275e1be53478ef88b42613f857ecc14d70a95bf27240bba4ba0663f;
  0x1cdac6c14dc5707bf275d29855dd33b3f843802582c55093f7d4c84fa1cab6dbf;
  0x19dadb4e83017a23f6ac6dd3e4af073bfd73c3fe5757e4b3fbd6680ceb7497abf;
  0x14a37b7f3e9d692bf13939aede540d33e564c3514b16802bfe2ef8981c9621abf;
  0x13e61a7c42bc41ebf8d2c7ed416c1523fa14efee5742a24bf6e557f0e7705c73e;
  0x17a0b341637effabe7caa017a0275e1be02310d7e208d333f2832adec323866bf;
  0x14c507204414b5dbf6e557f0e7705c73e7a0b341637effabe7caa017a0275e1be;
  0x12e1c1f06035009bf5b0ef9280260383f8883e50418de503fa925a94393b3f43e;
  0x13a952c191d0827bfb060ce9fbcf924bf288cd90199664c3f34df562050597bbf;
  0x11875a9e4eaec92bf30ff1fd2f8bff9beb206b0a773202e3f1486c5d6af86133f;
  0x15615224216257fbff8ee9b2c17ac75bfa4708e8d63298cbf2a702f7867e07dbf;
  0x1161ced49918a6cbf222ee020419f533fa2a4013e4276923fae0cf2f37e16a23f;
  0x1b1f6c17394f890bf85b4998b6e4554bf14e7643713fe4f3fb638c281932e41bf;
  0x16c02f24ec9eba93f14be8912c2a488bfd54da2981a7a8d3f5be5e2fd3ff6b0bf;
  0x13853babcbef3503fe9ca00c17e0da83f074bf6409c138d3fd40568c9847c52bf;
  0x158c3dfbb005f71bf8261fb8469b6a5bfc0b51743225a6f3f062661a3c0a8903f;
  0x12a702f7867e07dbf161ced49918a6cbf222ee020419f533fbf9aa06a99a1a3bf;
  0x1c9d8ea7ad136b23f0886715f6dac973f28702f7867e07dbf161ced49918a6cbf;
  0x1212ee020419f533f3deb85287ddea5bf8294488e25dfb1bf454c3515b5cc81bf;
  0x169719db983a185bf22c48f98aa9585bf162ac2527a5743bf39889ce462f18f3f;
  0x11ac13483aeb2a93f30553c2a81b9a03f988169124a9c7fbfb63c8d32c73d513f;
  0x183f84e975c725e3f30fa9816ea0a8c3f08f3cac92fa7a93f928edb8ed8bd6d3f;
  0x1244df0a714267d3f2f1a1bd7c187593f13ad900990e953bf292833454c1790bf;
  0x1ebd3ae588bca7d3f53cb4ded9a8d703f33e829d85847543fa00747befb8c723f;
  0x1e20ca5d5dc81353ff31e7b344b0baabfca510c8f7d689ebf20d8ae2b81f3793f;
  0x177c5d5827f4aaf3f44cd1239813275bfbda5342512318abf27adf6ac0ab88cbf;
  0x108dc95557374533fccf4fd66eb09683f6d20968a2d6ca43ffb0192c8c5e792bf;
  0x1d60fbe1b550285bf244df0a714267d3f2f1a1bd7c187593f13ad900990e953bf;
  0x18c1e62ac4b54a43fb747e70da4aaa3bfd351bf66b21c8abf224df0a714267d3f;
  0x12e1a1bd7c187593f12ad900990e953bf4f6c961ae70da63f60b9ab2476f2ac3f;
  0x18272a6fa17bb56bf0388aa2329b8853f38232c2e7aa67d3f9dd9eb0d767753bf;
  0x1725bf4b66c6091bf2e1e62e1b9ce96bf6dd510e1e1e8413f2eeafbc7f5407f3f;
  0x13821c3d1bd5f5b3f325349ccaf5955bfe46240989ff97abf63a6859b467ba4bf;
  0x195d2571628cd853fcaf629be956e2a3f00f474cc62d35b3f48478200c5bc0cbf;
  0x11e3f9637a4f071bffdb7224f0ca696bf079bbab909c3833fcd89b832c1ea36bf;
  0x1f7470eca7c6661bff99b10c18985423fb706e3090a1f6f3fa02c5f2683457a3f;
  0x1faf404d0680f90bf47ec5db43d9a713faeeca4d9e4bb853f0c95d0d3ed3290bf;
  0x1344969ffae1322bf38b04510d75136bf61d60f2bb0a2403feef13af294af653f;
  0x144c5a12ead608b3f061244925ce377bfcaf629be956e2a3f00f474cc62d35b3f;
  0x138478200c5bc0cbf5d7933ffa8b95bbf9f1a2a65eb6c9ebf8cad7465843181bf;
  0x1caf629be956e2a3f00f474cc62d35b3f40478200c5bc0cbffeef36215c3634bf;
  0x155729a9b1e588a3f83f69f819d4e823f8a75811c45911d3fc2e468291c185f3f;
  0x19a416e2b3cc9403f950c090194b8403f990b275630cb95bf2d3f7c812a4a8ebf;
  0x168ca0766d3c11bbfe1230bd083384dbf88590c60992dfe3ed61e84690d47403f;
  0x12e768e4532b373bf615904c8aa3341bf22b02cb2dd21f9bee34f5182efcf2d3f;
  0x1b812490b5103133f759ab8a898e9603f5b16ed6e94f994bfc6b289dc469d673f;
  0x116bb770018e3363f0e015980ffb26bbf67d34154c92f38bf463e51b1eb266dbf;
  0x1d6b25ce7be14a23fe29fdf1c13aa74bfbded119930ae4b3fe6a0652938827abf;
  0x1e7ad969b86cf92bf68bbf801d84203bf67578edf1c72323f2b71f617a82d4a3f;
  0x1180a6ebe54bd20bf188ae28daec2543fb5cc8c78785f27bf21b02cb2dd21f9be;
  0x1e44f5182efcf2d3fb612490b5103133f2cff0b1c838d353fbcc8955593c868bf;
  0x1c332bcca8f2a60bf22b02cb2dd21f9bee54f5182efcf2d3fb612490b5103133f;
  0x14fc84c38e7f40bbf2487697fa8e63a3f91205197d4ab523f38618611fd7124bf;
  0x16caf64e24ffb563fdbcd952195be543f1fdeb993d43e4c3fb361813bcb2d7bbf;
  0x17511c32234dd92bf85d2b600734b293ffdcb4a1c43015ebf6ead0b61c62243bf;
  0x154b5a1354ad09bbf78cd886030d887bf8053a107a38a86bfc2b98005c8267fbf;
  0x1cfcd9235e72b62bf242c1f9ad4f0523ffaaf4a2651628f3f24e7eb6e29faa33f;
  0x19243195036de92bf82f1ceff501c6dbf0c19278ca897513fdc3667ff7af043bf;
  0x18bef3e7c4e28a63f5869b595d8ce95bf2b9aebce03a0953f822ee1a90a8cadbf;
  0x1486e1878dfdd663f7e46eee2871ca63fad8a761496ec943fb3dadbd1a0db69bf;
  0x18434dc8a9c5975bf9cce35042e5ba6bf02602473fb727b3fc600189b6a49903f;
  0x1c1b98005c8267fbfcfcd9235e72b62bf242c1f9ad4f0523fb21a77f906f0abbf;
  0x1d8b8d4b90e42b23f3d0c1b12f8b5993fc2b98005c8267fbfcecd9235e72b62bf;
  0x1242c1f9ad4f0523fa5ccc8aff4b0a8bf0ca047546344b2bfe1727fee4a8b81bf;
  0x121cc6ca4dcc38dbf25525b64b2fe89bfe45db23ea53b31bf792e92aae7cc883f;
  0x1d829b8a46e20a93f7007b9a97395a03fde687034209088bf9ab3f78bba53613f;
  0x1aa4def2a8ddb623f811ff3862f77a03f3295863dff47ac3f5866c838e6b8313f;
  0x1e1ca1a054eeb7e3fd80b5aac171a533f04a6474b307753bfe607df9da18f88bf;
  0x1205940798dd37a3fca338cbc56c3663fa0120f4a52756d3fd767dd4b7b4c793f;
  0x1007fafeae4b4ff3e117b517e2f7fa7bf963b8f3fdb2896bf98c5e8756443773f;
  0x1cec721b0bbe6aa3fa068ba4dc25d7abf2645a933e21884bf8f06da4245c894bf;
  0x17c7d8de1735e643f400c90533f0d6f3f96762e401636a53f1c60e945ea2a97bf;
  0x11350af6392a883bfe0ca1a054eeb7e3fd80b5aac171a533f04a6474b307753bf;
  0x16a7259ace839ac3f0a90daece960a5bf6f724b11adb08cbfe1ca1a054eeb7e3f;
  0x1d60b5aac171a533f04a6474b307753bfdf20719476faa83f4962226f9698ad3f;
  0x1162fa424dd3863bfd025ab4e8ffe8d3fac8bd125ebec813f1cb78272ba7c5abf;
  0x1417a656d4eec8cbf294edc048f2291bf74bef447fd41463fe4e81b8cef76883f;
  0x136522db6823a5e3f43adba89d5cd5ebf05a2ae5099a174bfa8f1fe0d6616a4bf;
  0x1921439d7967a853f569dbcbd2787103fcc1c658f18c8473f60fb9e4624f8d6be;
  0x160083f9e3e4c6abf4bee0b59dbe395bfc9bb759f0cac813fb71a5032776c1abf;
  0x10f5c49f22eba49bf9e1614dc60822b3f8fdc37d0fbbf633fd0bba6072b5f493f;
  0x1182ac7c5770c8ebfe4e4374f78bd6f3f54e1195d930b923f849811bd1e4f8ebf;
  0x1386ab787b03f0cbf1aa700376f0f30bf0fa94820a3f92a3ffe4a4f163f46623f;
  0x147ffee9c416c8e3f296fef65898f78bf579dbcbd2787103fcd1c658f18c8473f;
  0x120fb9e4624f8d6be03ea5e088ced45bf705947c399159bbf3ecbbeccbd7684bf;
  0x1569dbcbd2787103fcd1c658f18c8473fc0fa9e4624f8d6befaf805ec668340bf;
  0x1ce42fd2443838a3fe8d9f1022aac843f502a1db7ac86fc3ed86146f6c674483f;
  0x15dd525c254212e3f69c974a374c3473f48344b779d1393bf9ebcab65b4bf8dbf;
  0x13bcbe8dc3d99f8be8508c95677b231bfc0b16d79b717c13e28a63dcef7a2043f;
  0x15f812bbb68dc71bf52773fd49f48303f024f0e447a8adabe830564dca966353f;
  0x15c1be3ad7aaa033f0dfef26df0cf1fbf46f61be35ac598bfcf7c33a314bf7c3f;
  0x1e3ed97d49b980e3f98029e901f7b7abf786a19427724383f91bc0d0f45e12a3f;
  0x188b7833e5d96a53f0a6d041342d588bfca0c7d99ee2e553feaa95c71bd9f8cbf;
  0x1261e7f4d0f0593bf2169a858f93016bf69c8b95c6bfc4d3f70a44720bfec533f;
  0x113c96a4c547ad63e80878caaa980513f9d3c1ff1c34f34bf014f0e447a8adabe;
  0x1820564dca966353f561be3ad7aaa033ff6df477efaa81b3fd34eb3526a8669bf;
  0x175d65e312a2452bf024f0e447a8adabe820564dca966353f5c1be3ad7aaa033f;
  0x15358f1e023d10dbfe946630bdcd7433fe74b6a4b83d54a3f02117a26803d22bf;
  0x16c81953ceb296a3fe993ea2979075b3f86f9dfc47b19553f81a2919a61158cbf;
  0x185d6db0a1dfd92bf09307aa1a3be123fa43b35fcac3a6ebfa693829f42c73bbf]%N.
Definition file_206 : list N := [0x1934e554d5059010076007b276465736372273a205b282773616d706c65272c20;
  0x1273c693427292c202827737472756374757265272c20273c693427292c202827;
  0x161746f6d272c20273c693427295d2c2027666f727472616e5f6f72646572273a;
  0x12046616c73652c20277368617065273a202831322c292c207d2020202020200a;
  0x10000000000000000000000000000000000000000010000000000000000000000;
  0x10200000000000000000000000300000001000000010000000000000001000000;
  0x10100000001000000010000000100000002000000010000000100000003000000;
  0x10200000002000000000000000200000002000000010000000200000002000000;
  0x102000000020000000200000003000000]%N.
Definition file_207 : list N := [0x1934e554d5059010076007b276465736372273a205b28276772616469656e745f;
  0x1646972656374696f6e272c20273c693427295d2c2027666f727472616e5f6f72;
  0x1646572273a2046616c73652c20277368617065273a2028332c292c207d202020;
  0x1202020202020202020202020202020202020202020202020202020202020200a;
  0x1000000000100000002000000]%N.
Definition file_208 : list N := [0x1934e554d5059010076007b276465736372273a205b282773706865726963616c;
  0x15f6861726d6f6e6963735f6d272c20273c693427295d2c2027666f727472616e;
  0x15f6f72646572273a2046616c73652c20277368617065273a2028352c292c207d;
  0x1202020202020202020202020202020202020202020202020202020202020200a;
  0x1feffffffffffffff000000000100000002000000]%N.
Definition file_209 : list N := [0x1934e554d5059010076007b276465736372273a20273c6638272c2027666f7274;
  0x172616e5f6f72646572273a2046616c73652c20277368617065273a2028332c20;
  0x1352c2033292c207d202020202020202020202020202020202020202020202020;
  0x1202020202020202020202020202020202020202020202020202020202020200a;
  0x10000000000000000000000000000000000000000000000000000000000000000;
  0x10000000000000000000000000000000000000000000000000000000000000000;
  0x10000000000000000000000000000000000000000000000000000000000000000;
  0x10000000000000000000000000000000000000000000000000000000000000000;
  0x10000000000000000000000000000000000000000000000000000000000000000;
  0x10000000000000000000000000000000000000000000000000000000000000000;
  0x10000000000000000000000000000000000000000000000000000000000000000;
  0x10000000000000000000000000000000000000000000000000000000000000000;
  0x10000000000000000000000000000000000000000000000000000000000000000;
  0x10000000000000000000000000000000000000000000000000000000000000000;
  0x10000000000000000000000000000000000000000000000000000000000000000;
  0x10000000000000000]%N.
Definition file_210 : list N := [0x1934e554d5059010076007b276465736372273a205b2827737472756374757265;
  0x1272c20273c693427292c20282763656e746572272c20273c693427295d2c2027;
  0x1666f727472616e5f6f72646572273a2046616c73652c20277368617065273a20;
  0x128332c292c207d2020202020202020202020202020202020202020202020200a;
  0x1000000000000000001000000000000000200000000000000]%N.
Definition file_211 : list N := [0x1934e554d5059010076007b276465736372273a205b282773706865726963616c;
  0x15f6861726d6f6e6963735f6d272c20273c693427295d2c2027666f727472616e;
  0x15f6f72646572273a2046616c73652c20277368617065273a2028352c292c207d;
  0x1202020202020202020202020202020202020202020202020202020202020200a;
  0x1feffffffffffffff000000000100000002000000]%N.
Definition file_212 : list N := [0x1934e554d5059010076007b276465736372273a205b28276e272c20273c693427;
  0x1295d2c2027666f727472616e5f6f72646572273a2046616c73652c2027736861;
  0x17065273a2028332c292c207d2020202020202020202020202020202020202020;
  0x1202020202020202020202020202020202020202020202020202020202020200a;
  0x1000000000100000002000000]%N.
Definition file_213 : list N := [0x1934e554d5059010076007b276465736372273a20273c6638272c2027666f7274;
  0x172616e5f6f72646572273a2046616c73652c20277368617065273a2028332c20;
  0x1332c20352c2033292c207d202020202020202020202020202020202020202020;
  0x1202020202020202020202020202020202020202020202020202020202020200a;
  0x10000000000000000000000000000000000000000000000000000000000000000;
  0x10000000000000000000000000000000000000000000000000000000000000000;
  0x10000000000000000000000000000000000000000000000000000000000000000;
  0x10000000000000000000000000000000000000000000000000000000000000000;
  0x10000000000000000000000000000000000000000000000000000000000000000;
  0x10000000000000000000000000000000000000000000000000000000000000000;
  0x10000000000000000000000000000000000000000000000000000000000000000;
  0x10000000000000000000000000000000000000000000000000000000000000000;
  0x10000000000000000000000000000000000000000000000000000000000000000;
  0x10000000000000000000000000000000000000000000000000000000000000000;
  0x10000000000000000000000000000000000000000000000000000000000000000;
  0x10000000000000000000000000000000000000000000000000000000000000000;
  0x10000000000000000000000000000000000000000000000000000000000000000;
  0x10000000000000000000000000000000000000000000000000000000000000000;
  0x10000000000000000000000000000000000000000000000000000000000000000;
  0x10000000000000000000000000000000000000000000000000000000000000000;
  0x10000000000000000000000000000000000000000000000000000000000000000;
  0x10000000000000000000000000000000000000000000000000000000000000000;
  0x10000000000000000000000000000000000000000000000000000000000000000;
  0x10000000000000000000000000000000000000000000000000000000000000000;
  0x10000000000000000000000000000000000000000000000000000000000000000;
  0x10000000000000000000000000000000000000000000000000000000000000000;
  0x10000000000000000000000000000000000000000000000000000000000000000;
  0x10000000000000000000000000000000000000000000000000000000000000000;
  0x10000000000000000000000000000000000000000000000000000000000000000;
  0x10000000000000000000000000000000000000000000000000000000000000000;
  0x10000000000000000000000000000000000000000000000000000000000000000;
  0x10000000000000000000000000000000000000000000000000000000000000000;
  0x10000000000000000000000000000000000000000000000000000000000000000;
  0x10000000000000000000000000000000000000000000000000000000000000000;
  0x10000000000000000000000000000000000000000000000000000000000000000;
  0x10000000000000000000000000000000000000000000000000000000000000000;
  0x10000000000000000000000000000000000000000000000000000000000000000;
  0x1000000000000000000000000000000000000000000000000]%N.
Definition file_214 : list N := [0x1934e554d5059010076007b276465736372273a205b282773616d706c65272c20;
  0x1273c693427292c202827737472756374757265272c20273c693427292c202827;
  0x161746f6d272c20273c693427295d2c2027666f727472616e5f6f72646572273a;
  0x12046616c73652c20277368617065273a2028332c292c207d202020202020200a;
  0x10000000000000000000000000100000001000000000000000200000002000000;
  0x100000000]%N.
Definition file_215 : list N := [0x1934e554d5059010076007b276465736372273a205b28276772616469656e745f;
  0x1646972656374696f6e272c20273c693427295d2c2027666f727472616e5f6f72;
  0x1646572273a2046616c73652c20277368617065273a2028332c292c207d202020;
  0x1202020202020202020202020202020202020202020202020202020202020200a;
  0x1000000000100000002000000]%N.
Definition file_216 : list N := [0x1934e554d5059010076007b276465736372273a205b282773706865726963616c;
  0x15f6861726d6f6e6963735f6d272c20273c693427295d2c2027666f727472616e;
  0x15f6f72646572273a2046616c73652c20277368617065273a2028352c292c207d;
  0x1202020202020202020202020202020202020202020202020202020202020200a;
  0x1feffffffffffffff000000000100000002000000]%N.

Definition data_npz : archive := map (fun f => (fst f, bytes_of_words (snd f)))
  [("keys.npy", file_0);
   ("blocks/0/values/data.npy", file_1);
   ("blocks/0/values/samples.npy", file_2);
   ("blocks/0/values/components/0.npy", file_3);
   ("blocks/0/values/properties.npy", file_4);
   ("blocks/0/gradients/positions/data.npy", file_5);
   ("blocks/0/gradients/positions/samples.npy", file_6);
   ("blocks/0/gradients/positions/components/0.npy", file_7);
   ("blocks/0/gradients/positions/components/1.npy", file_8);
   ("blocks/1/values/data.npy", file_9);
   ("blocks/1/values/samples.npy", file_10);
   ("blocks/1/values/components/0.npy", file_11);
   ("blocks/1/values/properties.npy", file_12);
   ("blocks/1/gradients/positions/data.npy", file_13);
   ("blocks/1/gradients/positions/samples.npy", file_14);
   ("blocks/1/gradients/positions/components/0.npy", file_15);
   ("blocks/1/gradients/positions/components/1.npy", file_16);
   ("blocks/2/values/data.npy", file_17);
   ("blocks/2/values/samples.npy", file_18);
   ("blocks/2/values/components/0.npy", file_19);
   ("blocks/2/values/properties.npy", file_20);
   ("blocks/2/gradients/positions/data.npy", file_21);
   ("blocks/2/gradients/positions/samples.npy", file_22);
   ("blocks/2/gradients/positions/components/0.npy", file_23);
   ("blocks/2/gradients/positions/components/1.npy", file_24);
   ("blocks/3/values/data.npy", file_25);
   ("blocks/3/values/samples.npy", file_26);
   ("blocks/3/values/components/0.npy", file_27);
   ("blocks/3/values/properties.npy", file_28);
   ("blocks/3/gradients/positions/data.npy", file_29);
   ("blocks/3/gradients/positions/samples.npy", file_30);
   ("blocks/3/gradients/positions/components/0.npy", file_31);
   ("blocks/3/gradients/positions/components/1.npy", file_32);
   ("blocks/4/values/data.npy", file_33);
   ("blocks/4/values/samples.npy", file_34);
   ("blocks/4/values/components/0.npy", file_35);
   ("blocks/4/values/properties.npy", file_36);
   ("blocks/4/gradients/positions/data.npy", file_37);
   ("blocks/4/gradients/positions/samples.npy", file_38);
   ("blocks/4/gradients/positions/components/0.npy", file_39);
   ("blocks/4/gradients/positions/components/1.npy", file_40);
   ("blocks/5/values/data.npy", file_41);
   ("blocks/5/values/samples.npy", file_42);
   ("blocks/5/values/components/0.npy", file_43);
   ("blocks/5/values/properties.npy", file_44);
   ("blocks/5/gradients/positions/data.npy", file_45);
   ("blocks/5/gradients/positions/samples.npy", file_46);
   ("blocks/5/gradients/positions/components/0.npy", file_47);
   ("blocks/5/gradients/positions/components/1.npy", file_48);
   ("blocks/6/values/data.npy", file_49);
   ("blocks/6/values/samples.npy", file_50);
   ("blocks/6/values/components/0.npy", file_51);
   ("blocks/6/values/properties.npy", file_52);
   ("blocks/6/gradients/positions/data.npy", file_53);
   ("blocks/6/gradients/positions/samples.npy", file_54);
   ("blocks/6/gradients/positions/components/0.npy", file_55);
   ("blocks/6/gradients/positions/components/1.npy", file_56);
   ("blocks/7/values/data.npy", file_57);
   ("blocks/7/values/samples.npy", file_58);
   ("blocks/7/values/components/0.npy", file_59);
   ("blocks/7/values/properties.npy", file_60);
   ("blocks/7/gradients/positions/data.npy", file_61);
   ("blocks/7/gradients/positions/samples.npy", file_62);
   ("blocks/7/gradients/positions/components/0.npy", file_63);
   ("blocks/7/gradients/positions/components/1.npy", file_64);
   ("blocks/8/values/data.npy", file_65);
   ("blocks/8/values/samples.npy", file_66);
   ("blocks/8/values/components/0.npy", file_67);
   ("blocks/8/values/properties.npy", file_68);
   ("blocks/8/gradients/positions/data.npy", file_69);
   ("blocks/8/gradients/positions/samples.npy", file_70);
   ("blocks/8/gradients/positions/components/0.npy", file_71);
   ("blocks/8/gradients/positions/components/1.npy", file_72);
   ("blocks/9/values/data.npy", file_73);
   ("blocks/9/values/samples.npy", file_74);
   ("blocks/9/values/components/0.npy", file_75);
   ("blocks/9/values/properties.npy", file_76);
   ("blocks/9/gradients/positions/data.npy", file_77);
   ("blocks/9/gradients/positions/samples.npy", file_78);
   ("blocks/9/gradients/positions/components/0.npy", file_79);
   ("blocks/9/gradients/positions/components/1.npy", file_80);
   ("blocks/10/values/data.npy", file_81);
   ("blocks/10/values/samples.npy", file_82);
   ("blocks/10/values/components/0.npy", file_83);
   ("blocks/10/values/properties.npy", file_84);
   ("blocks/10/gradients/positions/data.npy", file_85);
   ("blocks/10/gradients/positions/samples.npy", file_86);
   ("blocks/10/gradients/positions/components/0.npy", file_87);
   ("blocks/10/gradients/positions/components/1.npy", file_88);
   ("blocks/11/values/data.npy", file_89);
   ("blocks/11/values/samples.npy", file_90);
   ("blocks/11/values/components/0.npy", file_91);
   ("blocks/11/values/properties.npy", file_92);
   ("blocks/11/gradients/positions/data.npy", file_93);
   ("blocks/11/gradients/positions/samples.npy", file_94);
   ("blocks/11/gradients/positions/components/0.npy", file_95);
   ("blocks/11/gradients/positions/components/1.npy", file_96);
   ("blocks/12/values/data.npy", file_97);
   ("blocks/12/values/samples.npy", file_98);
   ("blocks/12/values/components/0.npy", file_99);
   ("blocks/12/values/properties.npy", file_100);
   ("blocks/12/gradients/positions/data.npy", file_101);
   ("blocks/12/gradients/positions/samples.npy", file_102);
   ("blocks/12/gradients/positions/components/0.npy", file_103);
   ("blocks/12/gradients/positions/components/1.npy", file_104);
   ("blocks/13/values/data.npy", file_105);
   ("blocks/13/values/samples.npy", file_106);
   ("blocks/13/values/components/0.npy", file_107);
   ("blocks/13/values/properties.npy", file_108);
   ("blocks/13/gradients/positions/data.npy", file_109);
   ("blocks/13/gradients/positions/samples.npy", file_110);
   ("blocks/13/gradients/positions/components/0.npy", file_111);
   ("blocks/13/gradients/positions/components/1.npy", file_112);
   ("blocks/14/values/data.npy", file_113);
   ("blocks/14/values/samples.npy", file_114);
   ("blocks/14/values/components/0.npy", file_115);
   ("blocks/14/values/properties.npy", file_116);
   ("blocks/14/gradients/positions/data.npy", file_117);
   ("blocks/14/gradients/positions/samples.npy", file_118);
   ("blocks/14/gradients/positions/components/0.npy", file_119);
   ("blocks/14/gradients/positions/components/1.npy", file_120);
   ("blocks/15/values/data.npy", file_121);
   ("blocks/15/values/samples.npy", file_122);
   ("blocks/15/values/components/0.npy", file_123);
   ("blocks/15/values/properties.npy", file_124);
   ("blocks/15/gradients/positions/data.npy", file_125);
   ("blocks/15/gradients/positions/samples.npy", file_126);
   ("blocks/15/gradients/positions/components/0.npy", file_127);
   ("blocks/15/gradients/positions/components/1.npy", file_128);
   ("blocks/16/values/data.npy", file_129);
   ("blocks/16/values/samples.npy", file_130);
   ("blocks/16/values/components/0.npy", file_131);
   ("blocks/16/values/properties.npy", file_132);
   ("blocks/16/gradients/positions/data.npy", file_133);
   ("blocks/16/gradients/positions/samples.npy", file_134);
   ("blocks/16/gradients/positions/components/0.npy", file_135);
   ("blocks/16/gradients/positions/components/1.npy", file_136);
   ("blocks/17/values/data.npy", file_137);
   ("blocks/17/values/samples.npy", file_138);
   ("blocks/17/values/components/0.npy", file_139);
   ("blocks/17/values/properties.npy", file_140);
   ("blocks/17/gradients/positions/data.npy", file_141);
   ("blocks/17/gradients/positions/samples.npy", file_142);
   ("blocks/17/gradients/positions/components/0.npy", file_143);
   ("blocks/17/gradients/positions/components/1.npy", file_144);
   ("blocks/18/values/data.npy", file_145);
   ("blocks/18/values/samples.npy", file_146);
   ("blocks/18/values/components/0.npy", file_147);
   ("blocks/18/values/properties.npy", file_148);
   ("blocks/18/gradients/positions/data.npy", file_149);
   ("blocks/18/gradients/positions/samples.npy", file_150);
   ("blocks/18/gradients/positions/components/0.npy", file_151);
   ("blocks/18/gradients/positions/components/1.npy", file_152);
   ("blocks/19/values/data.npy", file_153);
   ("blocks/19/values/samples.npy", file_154);
   ("blocks/19/values/components/0.npy", file_155);
   ("blocks/19/values/properties.npy", file_156);
   ("blocks/19/gradients/positions/data.npy", file_157);
   ("blocks/19/gradients/positions/samples.npy", file_158);
   ("blocks/19/gradients/positions/components/0.npy", file_159);
   ("blocks/19/gradients/positions/components/1.npy", file_160);
   ("blocks/20/values/data.npy", file_161);
   ("blocks/20/values/samples.npy", file_162);
   ("blocks/20/values/components/0.npy", file_163);
   ("blocks/20/values/properties.npy", file_164);
   ("blocks/20/gradients/positions/data.npy", file_165);
   ("blocks/20/gradients/positions/samples.npy", file_166);
   ("blocks/20/gradients/positions/components/0.npy", file_167);
   ("blocks/20/gradients/positions/components/1.npy", file_168);
   ("blocks/21/values/data.npy", file_169);
   ("blocks/21/values/samples.npy", file_170);
   ("blocks/21/values/components/0.npy", file_171);
   ("blocks/21/values/properties.npy", file_172);
   ("blocks/21/gradients/positions/data.npy", file_173);
   ("blocks/21/gradients/positions/samples.npy", file_174);
   ("blocks/21/gradients/positions/components/0.npy", file_175);
   ("blocks/21/gradients/positions/components/1.npy", file_176);
   ("blocks/22/values/data.npy", file_177);
   ("blocks/22/values/samples.npy", file_178);
   ("blocks/22/values/components/0.npy", file_179);
   ("blocks/22/values/properties.npy", file_180);
   ("blocks/22/gradients/positions/data.npy", file_181);
   ("blocks/22/gradients/positions/samples.npy", file_182);
   ("blocks/22/gradients/positions/components/0.npy", file_183);
   ("blocks/22/gradients/positions/components/1.npy", file_184);
   ("blocks/23/values/data.npy", file_185);
   ("blocks/23/values/samples.npy", file_186);
   ("blocks/23/values/components/0.npy", file_187);
   ("blocks/23/values/properties.npy", file_188);
   ("blocks/23/gradients/positions/data.npy", file_189);
   ("blocks/23/gradients/positions/samples.npy", file_190);
   ("blocks/23/gradients/positions/components/0.npy", file_191);
   ("blocks/23/gradients/positions/components/1.npy", file_192);
   ("blocks/24/values/data.npy", file_193);
   ("blocks/24/values/samples.npy", file_194);
   ("blocks/24/values/components/0.npy", file_195);
   ("blocks/24/values/properties.npy", file_196);
   ("blocks/24/gradients/positions/data.npy", file_197);
   ("blocks/24/gradients/positions/samples.npy", file_198);
   ("blocks/24/gradients/positions/components/0.npy", file_199);
   ("blocks/24/gradients/positions/components/1.npy", file_200);
   ("blocks/25/values/data.npy", file_201);
   ("blocks/25/values/samples.npy", file_202);
   ("blocks/25/values/components/0.npy", file_203);
   ("blocks/25/values/properties.npy", file_204);
   ("blocks/25/gradients/positions/data.npy", file_205);
   ("blocks/25/gradients/positions/samples.npy", file_206);
   ("blocks/25/gradients/positions/components/0.npy", file_207);
   ("blocks/25/gradients/positions/components/1.npy", file_208);
   ("blocks/26/values/data.npy", file_209);
   ("blocks/26/values/samples.npy", file_210);
   ("blocks/26/values/components/0.npy", file_211);
   ("blocks/26/values/properties.npy", file_212);
   ("blocks/26/gradients/positions/data.npy", file_213);
   ("blocks/26/gradients/positions/samples.npy", file_214);
   ("blocks/26/gradients/positions/components/0.npy", file_215);
   ("blocks/26/gradients/positions/components/1.npy", file_216)].
Definition data_names : list string := map fst data_npz.

(* the sizes of the files, as listed by the archive *)
Definition data_npz_sizes : list Z := computed (map (fun f => Z.of_nat (length (snd f))) data_npz).
Example data_npz_sizes_right : data_npz_sizes = [516; 560; 272; 132; 140; 5744; 1064; 140; 132; 560; 272; 132;
  140; 5024; 944; 140; 132; 560; 272; 132; 140; 2288; 488; 140; 132; 344; 200; 132; 140; 4376; 836; 140; 132; 344; 200; 132; 140; 2072; 452;
  140; 132; 344; 200; 132; 140; 1424; 344; 140; 132; 200; 152; 132; 140; 1424; 344; 140; 132; 200; 152; 132; 140; 992; 272; 140; 132; 200;
  152; 132; 140; 344; 164; 140; 132; 1424; 272; 140; 140; 16976; 1064; 140; 140; 1424; 272; 140; 140; 14816; 944; 140; 140; 1424; 272; 140;
  140; 6608; 488; 140; 140; 776; 200; 140; 140; 12872; 836; 140; 140; 776; 200; 140; 140; 5960; 452; 140; 140; 776; 200; 140; 140; 4016; 344;
  140; 140; 344; 152; 140; 140; 4016; 344; 140; 140; 344; 152; 140; 140; 2720; 272; 140; 140; 344; 152; 140; 140; 776; 164; 140; 140; 2288;
  272; 148; 140; 28208; 1064; 140; 148; 2288; 272; 148; 140; 24608; 944; 140; 148; 2288; 272; 148; 140; 10928; 488; 140; 148; 1208; 200; 148;
  140; 21368; 836; 140; 148; 1208; 200; 148; 140; 9848; 452; 140; 148; 1208; 200; 148; 140; 6608; 344; 140; 148; 488; 152; 148; 140; 6608;
  344; 140; 148; 488; 152; 148; 140; 4448; 272; 140; 148; 488; 152; 148; 140; 1208; 164; 140; 148]%Z.
Proof. reflexivity. Qed.

(* tests/serialization.rs:1-30 -- load_file *)
Definition loaded_names : option (list string * outcome nat) :=
  computed (match load Debug data_names data_npz with
            | Ok t => Some (labels_names (tm_keys t), labels_count (tm_keys t))
            | _ => None
            end).
Definition summary_of (b : BasicBlock) : list nat * list string * list (list string) * list string :=
  (nd_shape (a_nd (bb_data b)), labels_names (bb_samples b), map labels_names (bb_components b), labels_names (bb_properties b)).
Definition loaded_block :=
  computed (match load Debug data_names data_npz with
            | Ok t => option_map (fun b => (summary_of (tb_values b), map fst (tb_gradients b),
                                            option_map summary_of (tensor_block_gradient b "positions"))) (nth_error (tm_blocks t) 13)
            | _ => None
            end).

Example test_load_file :
  loaded_names = Some (["spherical_harmonics_l"; "center_species"; "neighbor_species"], Ok 27)
  /\ loaded_block
     = Some (([9; 3; 3], ["structure"; "center"], [["spherical_harmonics_m"]], ["n"]), ["positions"],
             Some ([27; 3; 3; 3], ["sample"; "structure"; "atom"], [["gradient_direction"]; ["spherical_harmonics_m"]], ["n"])).
Proof. split; reflexivity. Qed.

(* tests/python/serialization.py:16-46 -- test_load. Both ways to read the file give
   the same labels and the same elements, in all blocks. *)
Definition as_numpy : numpy :=
  mk_numpy LittleEndian 1 2 (fun _ _ => None)
    (fun f => match header_from_reader f with Ok r => Some r | _ => None end).

Definition same_labels (l1 l2 : Labels) : bool :=
  (if list_eq_dec string_dec (labels_names l1) (labels_names l2) then true else false)
  && (if list_eq_dec Z.eq_dec (l_values l1) (l_values l2) then true else false).
Fixpoint same_lists {A} (same : A -> A -> bool) (l1 l2 : list A) : bool :=
  match l1, l2 with
  | [], [] => true
  | a1 :: l1, a2 :: l2 => same a1 a2 && same_lists same l1 l2
  | _, _ => false
  end.
Definition same_basic (b1 b2 : BasicBlock) : bool :=
  same_labels (bb_samples b1) (bb_samples b2) && same_lists same_labels (bb_components b1) (bb_components b2)
  && same_labels (bb_properties b1) (bb_properties b2)
  && same_lists Nat.eqb (nd_shape (a_nd (bb_data b1))) (nd_shape (a_nd (bb_data b2)))
  && same_lists Z.eqb (nd_data (a_nd (bb_data b1))) (nd_data (a_nd (bb_data b2))).
Definition same_block (b1 b2 : TensorBlock) : bool :=
  same_basic (tb_values b1) (tb_values b2)
  && same_lists (fun g1 g2 => (fst g1 =? fst g2)%string && same_basic (snd g1) (snd g2)) (tb_gradients b1) (tb_gradients b2).

Definition loaded_same : bool :=
  computed (match load Debug data_names data_npz, py_load as_numpy data_npz with
            | Ok t1, Ok t2 =>
                same_labels (tm_keys t1) (tm_keys t2) && same_lists same_block (tm_blocks t1) (tm_blocks t2)
                && (length (tm_blocks t2) =? 27)
            | _, _ => false
            end).
Example test_load_both : loaded_same = true.
Proof. reflexivity. Qed.
