(* Certificates for the completeness of the parser.  Nothing here is in the
   code: the lists were computed from the grammar and the tables by a script,
   and ParserFacts9 and ParserFacts10 check everything they use of them.  Sets
   of terminals are written as numbers, terminal x being bit x. *)
From Coq Require Import ZArith List.
Import ListNotations.
Open Scope Z_scope.

(* Place, production, symbols on the stack, terminals that may follow. *)
Record item := Item { place : nat; rule : nat; dot : nat; follow : Z }.

(* For every state the productions it may be working on, each with its place
   in the tree (0 anywhere, 1 the term of a sentence, 2 the first term of a
   product without connector), the number of right-hand side symbols already
   on the stack, and the terminals that may follow the production. *)
Definition ahead : list (list item) :=
  [
   [Item 0 207 0 291045130482337864; Item 0 208 0 291045130482337864; Item 0 209 0 291045130482337864; Item 0 210 0 2814754330626120; Item 0 211 0 2814754330626120; Item 0 269 0 1];
   [Item 0 207 0 576460752303423487; Item 0 208 1 576460752303423487; Item 0 210 1 288230376151711743];
   [Item 0 0 0 2814754330624072; Item 0 1 0 2814754330624072; Item 0 2 0 2814754330624072; Item 0 3 0 1; Item 0 196 0 2814754330624072; Item 0 206 0 1; Item 0 225 0 2147483648; Item 0 269 1 1];
   [Item 0 206 1 1];
   [Item 0 3 1 1; Item 0 4 0 36028797018963968; Item 0 5 0 36028797018963968; Item 0 6 0 1; Item 0 13 0 18014398509481984; Item 0 14 0 18014398509481984; Item 0 15 0 1; Item 0 19 0 9007199254740992; Item 0 20 0 9007199254740992; Item 0 21 0 1; Item 0 28 0 4503599627370496; Item 0 29 0 4503599627370496; Item 0 30 0 1; Item 0 34 0 67553994410557440; Item 0 35 0 67553994410557440; Item 0 36 0 67553994410557440; Item 0 37 0 67553994410557440; Item 0 43 0 67553994410557440; Item 0 68 0 67553994410557440; Item 0 69 0 67553994410557440; Item 0 70 0 67553994410557440; Item 0 71 0 67553994410557440; Item 0 72 0 67553994410557440; Item 0 73 0 67553994410557440; Item 0 74 0 67553994410557440; Item 0 75 0 67553994410557440; Item 0 76 0 67553994410557440; Item 0 77 0 67553994410557440; Item 0 78 0 67553994410557440; Item 0 79 0 67553994410557440; Item 0 85 0 67553994410557440; Item 0 91 0 67553994410557440; Item 0 92 0 67553994410557440; Item 0 93 0 67553994410557440; Item 0 94 0 67553994410557440; Item 0 100 0 67553994410557440; Item 0 106 0 67553994410557440; Item 0 107 0 67553994410557440; Item 0 111 0 67553994410557440; Item 0 115 0 67553994410557440; Item 0 121 0 67553994410557440; Item 0 122 0 67553994410557440; Item 0 127 0 67553994410557440; Item 0 176 0 20829152840109128; Item 0 177 0 20829152840109128; Item 0 178 0 20829152840109128; Item 0 203 0 68116944363978752; Item 0 204 0 68116944363978752; Item 0 205 0 68116944363978752; Item 0 222 0 20829152907099208; Item 0 227 0 68116944363978752; Item 0 228 0 68116944363978752; Item 0 229 0 72; Item 0 230 0 20829152840109128; Item 0 244 0 20829152840109128; Item 0 257 0 20829152840109128; Item 0 259 0 20829152840109128; Item 0 260 0 144115188075855872; Item 1 63 0 67553994410557440; Item 1 64 0 67553994410557440; Item 1 65 0 67553994410557440; Item 1 67 0 67553994410557440];
   [Item 0 207 0 291045132629819464; Item 0 208 0 291045132629819464; Item 0 209 0 291045132629819464; Item 0 210 0 2814756478107720; Item 0 211 0 2814756478107720; Item 0 225 1 2814756478107720];
   [Item 0 196 1 2814754330624072; Item 0 266 0 2050];
   [Item 0 4 1 36028797018963968; Item 0 13 1 18014398509481984; Item 0 19 1 9007199254740992; Item 0 28 1 4503599627370496];
   [Item 0 5 1 36028797018963968; Item 0 14 1 18014398509481984; Item 0 20 1 9007199254740992; Item 0 29 1 4503599627370496];
   [Item 0 6 1 1; Item 0 212 0 693];
   [Item 0 15 1 1; Item 0 213 0 689];
   [Item 0 21 1 1; Item 0 214 0 693];
   [Item 0 30 1 1; Item 0 215 0 689];
   [Item 0 207 0 309059528991820872; Item 0 208 0 309059528991820872; Item 0 209 0 309059528991820872; Item 0 210 0 20829152840109128; Item 0 211 0 20829152840109128; Item 0 230 1 20829152840109128];
   [Item 0 207 0 309059529058810952; Item 0 208 0 309059529058810952; Item 0 209 0 309059529058810952; Item 0 210 0 20829152907099208; Item 0 211 0 20829152907099208; Item 0 222 1 20829152907099208];
   [Item 0 43 1 69242784409583616; Item 0 64 1 69242784409583616; Item 0 222 0 20829152840109128; Item 1 64 1 67553994410557440; Item 2 64 1 140737488355328];
   [Item 0 207 0 288230376151711816; Item 0 208 0 288230376151711816; Item 0 209 0 288230376151711816; Item 0 210 0 72; Item 0 211 0 72; Item 0 229 1 72];
   [Item 0 207 0 432345564227567616; Item 0 208 0 432345564227567616; Item 0 209 0 432345564227567616; Item 0 210 0 144115188075855872; Item 0 211 0 144115188075855872; Item 0 260 1 144115188075855872];
   [Item 0 34 0 140737622573056; Item 0 35 0 140737622573056; Item 0 36 0 140737622573056; Item 0 37 0 140737622573056; Item 0 43 0 140737622573056; Item 0 61 0 140737622573056; Item 0 62 0 140737622573056; Item 0 63 0 140737622573056; Item 0 64 0 140737622573056; Item 0 65 0 140737622573056; Item 0 66 0 140737622573056; Item 0 67 0 140737622573056; Item 0 68 0 140737622573056; Item 0 69 0 140737622573056; Item 0 70 0 140737622573056; Item 0 71 0 140737622573056; Item 0 72 0 140737622573056; Item 0 73 0 140737622573056; Item 0 74 0 140737622573056; Item 0 75 0 140737622573056; Item 0 76 0 140737622573056; Item 0 77 0 140737622573056; Item 0 78 0 140737622573056; Item 0 79 0 140737622573056; Item 0 79 1 69242784409583616; Item 0 85 0 140737622573056; Item 0 91 0 140737622573056; Item 0 92 0 140737622573056; Item 0 93 0 140737622573056; Item 0 94 0 140737622573056; Item 0 100 0 140737622573056; Item 0 106 0 140737622573056; Item 0 107 0 140737622573056; Item 0 111 0 140737622573056; Item 0 115 0 140737622573056; Item 0 121 0 140737622573056; Item 0 122 0 140737622573056; Item 0 127 0 140737622573056; Item 0 176 0 20829152840109128; Item 0 177 0 20829152840109128; Item 0 178 0 20829152840109128; Item 0 181 0 140737622573056; Item 0 182 0 140737622573056; Item 0 183 0 140737622573056; Item 0 203 0 703687575994368; Item 0 204 0 703687575994368; Item 0 205 0 703687575994368; Item 0 213 0 72; Item 0 222 0 20829152907099208; Item 0 225 0 72; Item 0 226 0 72; Item 0 227 0 703687575994368; Item 0 228 0 703687575994368; Item 0 229 0 72; Item 0 230 0 20829152840109128; Item 0 244 0 20829152840109128; Item 0 257 0 20829152840109128; Item 0 259 0 20829152840109128; Item 0 260 0 144115188075855872];
   [Item 0 34 0 140737555464192; Item 0 35 0 140737555464192; Item 0 36 0 140737555464192; Item 0 37 0 140737555464192; Item 0 43 0 140737555464192; Item 0 61 0 140737555464192; Item 0 62 0 140737555464192; Item 0 63 0 140737555464192; Item 0 64 0 140737555464192; Item 0 65 0 140737555464192; Item 0 66 0 140737555464192; Item 0 67 0 140737555464192; Item 0 68 0 140737555464192; Item 0 69 0 140737555464192; Item 0 70 0 140737555464192; Item 0 71 0 140737555464192; Item 0 72 0 140737555464192; Item 0 73 0 140737555464192; Item 0 74 0 140737555464192; Item 0 75 0 140737555464192; Item 0 76 0 140737555464192; Item 0 77 0 140737555464192; Item 0 78 0 140737555464192; Item 0 79 0 140737555464192; Item 0 85 0 140737555464192; Item 0 85 1 69242784409583616; Item 0 91 0 140737555464192; Item 0 92 0 140737555464192; Item 0 93 0 140737555464192; Item 0 94 0 140737555464192; Item 0 100 0 140737555464192; Item 0 106 0 140737555464192; Item 0 107 0 140737555464192; Item 0 111 0 140737555464192; Item 0 115 0 140737555464192; Item 0 121 0 140737555464192; Item 0 122 0 140737555464192; Item 0 127 0 140737555464192; Item 0 176 0 20829152840109128; Item 0 177 0 20829152840109128; Item 0 178 0 20829152840109128; Item 0 181 0 140737555464192; Item 0 182 0 140737555464192; Item 0 183 0 140737555464192; Item 0 203 0 703687508885504; Item 0 204 0 703687508885504; Item 0 205 0 703687508885504; Item 0 213 0 72; Item 0 222 0 20829152907099208; Item 0 225 0 72; Item 0 226 0 72; Item 0 227 0 703687508885504; Item 0 228 0 703687508885504; Item 0 229 0 72; Item 0 230 0 20829152840109128; Item 0 244 0 20829152840109128; Item 0 257 0 20829152840109128; Item 0 259 0 20829152840109128; Item 0 260 0 144115188075855872];
   [Item 0 34 0 69242784409583616; Item 0 35 0 69242784409583616; Item 0 36 0 69242784409583616; Item 0 37 0 69242784409583616; Item 0 43 0 69242784409583616; Item 0 61 0 69242784409583616; Item 0 62 0 69242784409583616; Item 0 63 0 69242784409583616; Item 0 64 0 69242784409583616; Item 0 65 0 69242784409583616; Item 0 66 0 69242784409583616; Item 0 67 0 69242784409583616; Item 0 68 0 69242784409583616; Item 0 69 0 69242784409583616; Item 0 70 0 69242784409583616; Item 0 71 0 69242784409583616; Item 0 72 0 69242784409583616; Item 0 73 0 69242784409583616; Item 0 74 0 69242784409583616; Item 0 75 0 69242784409583616; Item 0 76 0 69242784409583616; Item 0 77 0 69242784409583616; Item 0 78 0 69242784409583616; Item 0 79 0 69242784409583616; Item 0 85 0 69242784409583616; Item 0 91 0 69242784409583616; Item 0 91 1 69242784409583616; Item 0 92 0 69242784409583616; Item 0 93 0 69242784409583616; Item 0 94 0 69242784409583616; Item 0 100 0 69242784409583616; Item 0 106 0 69242784409583616; Item 0 107 0 69242784409583616; Item 0 111 0 69242784409583616; Item 0 115 0 69242784409583616; Item 0 121 0 69242784409583616; Item 0 122 0 69242784409583616; Item 0 127 0 69242784409583616; Item 0 176 0 20829152840109128; Item 0 177 0 20829152840109128; Item 0 178 0 20829152840109128; Item 0 181 0 69242784409583616; Item 0 182 0 69242784409583616; Item 0 183 0 69242784409583616; Item 0 203 0 69805734363004928; Item 0 204 0 69805734363004928; Item 0 205 0 69805734363004928; Item 0 213 0 72; Item 0 222 0 20829152907099208; Item 0 225 0 72; Item 0 226 0 72; Item 0 227 0 69805734363004928; Item 0 228 0 69805734363004928; Item 0 229 0 72; Item 0 230 0 20829152840109128; Item 0 244 0 20829152840109128; Item 0 257 0 20829152840109128; Item 0 259 0 20829152840109128; Item 0 260 0 144115188075855872];
   [Item 0 207 0 309059528991820872; Item 0 208 0 309059528991820872; Item 0 209 0 309059528991820872; Item 0 210 0 20829152840109128; Item 0 211 0 20829152840109128; Item 0 259 1 20829152840109128];
   [Item 0 207 0 309059528991820872; Item 0 208 0 309059528991820872; Item 0 209 0 309059528991820872; Item 0 210 0 20829152840109128; Item 0 211 0 20829152840109128; Item 0 257 1 20829152840109128];
   [Item 0 207 0 309200266480176200; Item 0 208 0 309200266480176200; Item 0 209 0 309200266480176200; Item 0 210 0 20969890328464456; Item 0 211 0 20969890328464456; Item 0 244 1 20969890328464456];
   [Item 0 207 0 358036110514716672; Item 0 208 0 358036110514716672; Item 0 209 0 358036110514716672; Item 0 210 0 69805734363004928; Item 0 211 0 69805734363004928; Item 0 227 1 69805734363004928];
   [Item 0 207 0 358036110514716672; Item 0 208 0 358036110514716672; Item 0 209 0 358036110514716672; Item 0 210 0 69805734363004928; Item 0 211 0 69805734363004928; Item 0 228 1 69805734363004928];
   [Item 0 34 0 281414914146304; Item 0 35 0 281414914146304; Item 0 35 1 69242784409583616; Item 0 36 0 281414914146304; Item 0 37 0 281414914146304; Item 0 37 1 69242784409583616; Item 0 43 0 281414914146304; Item 0 61 0 140677425790976; Item 0 62 0 140677425790976; Item 0 63 0 140677425790976; Item 0 64 0 140677425790976; Item 0 65 0 140677425790976; Item 0 66 0 140677425790976; Item 0 67 0 140677425790976; Item 0 68 0 562889890856960; Item 0 69 0 281414914146304; Item 0 70 0 281414914146304; Item 0 71 0 281414914146304; Item 0 72 0 281414914146304; Item 0 73 0 281414914146304; Item 0 74 0 281414914146304; Item 0 75 0 281414914146304; Item 0 76 0 281414914146304; Item 0 77 0 281414914146304; Item 0 78 0 281414914146304; Item 0 79 0 281414914146304; Item 0 85 0 281414914146304; Item 0 91 0 281414914146304; Item 0 92 0 281414914146304; Item 0 92 1 69242784409583616; Item 0 93 0 281414914146304; Item 0 94 0 281414914146304; Item 0 94 1 69242784409583616; Item 0 100 0 281414914146304; Item 0 100 1 69242784409583616; Item 0 106 0 281414914146304; Item 0 106 1 69242784409583616; Item 0 107 0 281414914146304; Item 0 107 1 69242784409583616; Item 0 111 0 281414914146304; Item 0 111 1 69242784409583616; Item 0 115 0 281414914146304; Item 0 115 1 69242784409583616; Item 0 121 0 281414914146304; Item 0 122 0 281414914146304; Item 0 122 1 69242784409583616; Item 0 127 0 281414914146304; Item 0 127 1 69242784409583616; Item 0 128 0 393216; Item 0 129 0 393216; Item 0 132 0 281474977103872; Item 0 133 0 281474977103872; Item 0 134 0 281474977103872; Item 0 135 0 281474977103872; Item 0 136 0 281474977103872; Item 0 137 0 281474977103872; Item 0 138 0 281474977103872; Item 0 139 0 281474977103872; Item 0 143 0 281474977103872; Item 0 147 0 281474977103872; Item 0 151 0 281474977103872; Item 0 155 0 281474977103872; Item 0 159 0 281474977103872; Item 0 163 0 281474977103872; Item 0 167 0 140737488355328; Item 0 168 0 140737488355328; Item 0 169 0 140737488355328; Item 0 170 0 140737488355328; Item 0 171 0 140737488355328; Item 0 172 0 140737488355328; Item 0 173 0 140737488355328; Item 0 174 0 140737488355328; Item 0 175 0 140737488355328; Item 0 176 0 20829152840109128; Item 0 177 0 20829152840109128; Item 0 178 0 20969890328464456; Item 0 179 0 140737488355328; Item 0 180 0 140737488355328; Item 0 181 0 281414914146304; Item 0 182 0 281414914146304; Item 0 183 0 281414914146304; Item 0 203 0 844364867567616; Item 0 204 0 844364867567616; Item 0 205 0 844364867567616; Item 0 213 0 72; Item 0 222 0 20829152907099208; Item 0 225 0 72; Item 0 226 0 72; Item 0 227 0 844364867567616; Item 0 228 0 844364867567616; Item 0 229 0 72; Item 0 230 0 20829152840109128; Item 0 244 0 20969890328464456; Item 0 245 0 140737488355328; Item 0 246 0 140737488355328; Item 0 247 0 140737488355328; Item 0 248 0 140737488355328; Item 0 249 0 140737488355328; Item 0 250 0 140737488355328; Item 0 251 0 140737488355328; Item 0 252 0 140737488355328; Item 0 253 0 140737488355328; Item 0 254 0 140737488355328; Item 0 255 0 140737488355328; Item 0 257 0 20829152840109128; Item 0 259 0 20829152840109128; Item 0 260 0 144115188075855872; Item 2 61 0 140737488355328; Item 2 62 0 140737488355328; Item 2 63 0 140737488355328; Item 2 64 0 140737488355328; Item 2 65 0 140737488355328; Item 2 66 0 140737488355328];
   [Item 0 68 1 69242784409583616; Item 0 203 0 69242784409583616; Item 0 204 0 69242784409583616; Item 0 205 0 69242784409583616; Item 0 227 0 69242784409583616; Item 0 228 0 69242784409583616];
   [Item 0 34 0 140677358813184; Item 0 34 1 69242784409583616; Item 0 35 0 140677358813184; Item 0 36 0 140677358813184; Item 0 37 0 140677358813184; Item 0 43 0 140677358813184; Item 0 61 0 140677358813184; Item 0 62 0 140677358813184; Item 0 63 0 140677358813184; Item 0 64 0 140677358813184; Item 0 65 0 140677358813184; Item 0 66 0 140677358813184; Item 0 67 0 140677358813184; Item 0 68 0 140677358813184; Item 0 69 0 140677358813184; Item 0 70 0 140677358813184; Item 0 71 0 140677358813184; Item 0 72 0 140677358813184; Item 0 73 0 140677358813184; Item 0 74 0 140677358813184; Item 0 75 0 140677358813184; Item 0 76 0 140677358813184; Item 0 77 0 140677358813184; Item 0 78 0 140677358813184; Item 0 79 0 140677358813184; Item 0 85 0 140677358813184; Item 0 91 0 140677358813184; Item 0 92 0 140677358813184; Item 0 93 0 140677358813184; Item 0 94 0 140677358813184; Item 0 100 0 140677358813184; Item 0 106 0 140677358813184; Item 0 107 0 140677358813184; Item 0 111 0 140677358813184; Item 0 115 0 140677358813184; Item 0 121 0 140677358813184; Item 0 122 0 140677358813184; Item 0 127 0 140677358813184; Item 0 176 0 20829152840109128; Item 0 177 0 20829152840109128; Item 0 178 0 20829152840109128; Item 0 181 0 140677358813184; Item 0 182 0 140677358813184; Item 0 183 0 140677358813184; Item 0 203 0 703627312234496; Item 0 204 0 703627312234496; Item 0 205 0 703627312234496; Item 0 213 0 72; Item 0 222 0 20829152907099208; Item 0 225 0 72; Item 0 226 0 72; Item 0 227 0 703627312234496; Item 0 228 0 703627312234496; Item 0 229 0 72; Item 0 230 0 20829152840109128; Item 0 244 0 20829152840109128; Item 0 257 0 20829152840109128; Item 0 259 0 20829152840109128; Item 0 260 0 144115188075855872];
   [Item 0 69 1 69242784409583616; Item 0 217 0 69242784409583616];
   [Item 0 207 0 288230376151713794; Item 0 208 0 288230376151713794; Item 0 209 0 288230376151713794; Item 0 210 0 2050; Item 0 211 0 2050; Item 0 266 1 2050];
   [Item 0 196 2 2814754330624072; Item 0 197 0 2048; Item 0 201 0 2048; Item 0 202 0 2048; Item 0 263 0 1073741824];
   [Item 0 207 0 288230376151712437; Item 0 208 0 288230376151712437; Item 0 209 0 288230376151712437; Item 0 210 0 693; Item 0 211 0 693; Item 0 212 1 693];
   [Item 0 6 2 1; Item 0 7 0 5; Item 0 8 0 5; Item 0 9 0 5; Item 0 184 0 5; Item 0 185 0 5; Item 0 186 0 5; Item 0 187 0 5; Item 0 216 0 144115188075855872; Item 0 219 0 5; Item 0 220 0 5; Item 0 221 0 5];
   [Item 0 207 0 288230376151712505; Item 0 208 0 288230376151712505; Item 0 209 0 288230376151712505; Item 0 210 0 761; Item 0 211 0 761; Item 0 213 1 761];
   [Item 0 15 2 1; Item 0 16 0 1; Item 0 17 0 1; Item 0 18 0 1; Item 0 184 0 1; Item 0 185 0 1; Item 0 186 0 1; Item 0 187 0 1; Item 0 216 0 144115188075855872; Item 0 219 0 1; Item 0 220 0 1; Item 0 221 0 1];
   [Item 0 207 0 288230376151712437; Item 0 208 0 288230376151712437; Item 0 209 0 288230376151712437; Item 0 210 0 693; Item 0 211 0 693; Item 0 214 1 693];
   [Item 0 21 2 1; Item 0 22 0 5; Item 0 23 0 5; Item 0 24 0 5; Item 0 184 0 5; Item 0 185 0 5; Item 0 186 0 5; Item 0 187 0 5; Item 0 216 0 144115188075855872; Item 0 219 0 5; Item 0 220 0 5; Item 0 221 0 5];
   [Item 0 207 0 288230376151712433; Item 0 208 0 288230376151712433; Item 0 209 0 288230376151712433; Item 0 210 0 689; Item 0 211 0 689; Item 0 215 1 689];
   [Item 0 30 2 1; Item 0 31 0 1; Item 0 32 0 1; Item 0 33 0 1; Item 0 184 0 1; Item 0 185 0 1; Item 0 186 0 1; Item 0 187 0 1; Item 0 216 0 144115188075855872; Item 0 219 0 1; Item 0 220 0 1; Item 0 221 0 1];
   [Item 0 34 0 422212465065984; Item 0 35 0 422212465065984; Item 0 36 0 422212465065984; Item 0 37 0 422212465065984; Item 0 43 0 422212465065984; Item 0 43 2 69242784409583616; Item 0 61 0 422212465065984; Item 0 62 0 422212465065984; Item 0 63 0 422212465065984; Item 0 64 0 422212465065984; Item 0 65 0 422212465065984; Item 0 66 0 422212465065984; Item 0 67 0 422212465065984; Item 0 68 0 422212465065984; Item 0 69 0 422212465065984; Item 0 70 0 422212465065984; Item 0 71 0 422212465065984; Item 0 72 0 422212465065984; Item 0 73 0 422212465065984; Item 0 74 0 422212465065984; Item 0 75 0 422212465065984; Item 0 76 0 422212465065984; Item 0 77 0 422212465065984; Item 0 78 0 422212465065984; Item 0 79 0 422212465065984; Item 0 85 0 422212465065984; Item 0 91 0 422212465065984; Item 0 92 0 422212465065984; Item 0 93 0 422212465065984; Item 0 94 0 422212465065984; Item 0 100 0 422212465065984; Item 0 106 0 422212465065984; Item 0 107 0 422212465065984; Item 0 111 0 422212465065984; Item 0 115 0 422212465065984; Item 0 121 0 422212465065984; Item 0 122 0 422212465065984; Item 0 127 0 422212465065984; Item 0 176 0 20829152840109128; Item 0 177 0 20829152840109128; Item 0 178 0 20829152840109128; Item 0 181 0 422212465065984; Item 0 182 0 422212465065984; Item 0 183 0 422212465065984; Item 0 203 0 985162418487296; Item 0 204 0 985162418487296; Item 0 205 0 985162418487296; Item 0 213 0 72; Item 0 222 0 20829152907099208; Item 0 225 0 72; Item 0 226 0 72; Item 0 227 0 985162418487296; Item 0 228 0 985162418487296; Item 0 229 0 72; Item 0 230 0 20829152840109128; Item 0 244 0 20829152840109128; Item 0 257 0 20829152840109128; Item 0 259 0 20829152840109128; Item 0 260 0 144115188075855872];
   [Item 0 79 2 69242784409583616; Item 0 80 0 140737622573056; Item 0 81 0 140737622573056; Item 0 82 0 140737622573056; Item 0 83 0 134217728; Item 0 84 0 134217728; Item 0 224 0 20829152840109128];
   [Item 0 207 0 288230376151711816; Item 0 208 0 288230376151711816; Item 0 209 0 288230376151711816; Item 0 210 0 72; Item 0 211 0 72; Item 0 226 1 72];
   [Item 0 183 1 69242784409583616; Item 0 203 0 69242784409583616; Item 0 204 0 69242784409583616; Item 0 205 0 69242784409583616; Item 0 227 0 69242784409583616; Item 0 228 0 69242784409583616];
   [Item 0 181 1 69242784409583616; Item 0 203 0 69242784409583616; Item 0 204 0 69242784409583616; Item 0 205 0 69242784409583616; Item 0 227 0 69242784409583616; Item 0 228 0 69242784409583616];
   [Item 0 182 1 69242784409583616; Item 0 203 0 69242784409583616; Item 0 204 0 69242784409583616; Item 0 205 0 69242784409583616; Item 0 227 0 69242784409583616; Item 0 228 0 69242784409583616];
   [Item 0 85 2 69242784409583616; Item 0 86 0 140737555464192; Item 0 87 0 140737555464192; Item 0 88 0 140737555464192; Item 0 89 0 67108864; Item 0 90 0 67108864; Item 0 224 0 20829152840109128];
   [Item 0 35 2 69242784409583616; Item 0 49 0 20829152840109128; Item 0 50 0 20829152840109128; Item 0 51 0 20829152840109128; Item 0 52 0 20829152840109128; Item 0 53 0 20829152840109128; Item 0 54 0 20829152840109128; Item 0 55 0 20829152840109128; Item 0 56 0 20829152840109128; Item 0 57 0 20829152840109128; Item 0 58 0 20829152840109128; Item 0 59 0 20829152840109128; Item 0 60 0 20829152840109128; Item 0 107 2 69242784409583616; Item 0 108 0 422212465065984; Item 0 109 0 422212465065984; Item 0 110 0 422212465065984; Item 0 128 1 393216; Item 0 139 1 281474977103872; Item 0 140 0 281475010658304; Item 0 141 0 281475010658304; Item 0 142 0 281475010658304; Item 0 143 1 281474977103872; Item 0 144 0 281474993881088; Item 0 145 0 281474993881088; Item 0 146 0 281474993881088; Item 0 147 1 281474977103872; Item 0 148 0 281474985492480; Item 0 149 0 281474985492480; Item 0 150 0 281474985492480; Item 0 151 1 281474977103872; Item 0 152 0 281474981298176; Item 0 153 0 281474981298176; Item 0 154 0 281474981298176; Item 0 155 1 281474977103872; Item 0 156 0 281474979201024; Item 0 157 0 281474979201024; Item 0 158 0 281474979201024; Item 0 159 1 281474977103872; Item 0 160 0 281474978152448; Item 0 161 0 281474978152448; Item 0 162 0 281474978152448; Item 0 163 1 281474977103872; Item 0 164 0 281474977628160; Item 0 165 0 281474977628160; Item 0 166 0 281474977628160; Item 0 224 0 20829152840109128; Item 0 232 0 20829152840109128; Item 0 233 0 20829152840109128; Item 0 234 0 20829152840109128; Item 0 235 0 20829152840109128; Item 0 236 0 20829152840109128; Item 0 237 0 20829152840109128; Item 0 238 0 20829152840109128; Item 0 239 0 20829152840109128; Item 0 240 0 20829152840109128; Item 0 241 0 20829152840109128; Item 0 242 0 20829152840109128; Item 0 243 0 20829152840109128; Item 0 247 0 20829152840109128; Item 0 248 0 20829152840109128; Item 0 249 0 20829152840109128; Item 0 250 0 20829152840109128; Item 0 251 0 20829152840109128; Item 0 252 0 20829152840109128; Item 0 253 0 20829152840109128];
   [Item 0 37 2 69242784409583616; Item 0 38 0 422212465065984; Item 0 39 0 422212465065984; Item 0 40 0 422212465065984; Item 0 41 0 281474976710656; Item 0 42 0 281474976710656; Item 0 67 1 140677425790976; Item 0 224 0 20829152840109128];
   [Item 0 34 0 281414914146304; Item 0 35 0 281414914146304; Item 0 36 0 281414914146304; Item 0 37 0 281414914146304; Item 0 43 0 281414914146304; Item 0 61 0 281414914146304; Item 0 62 0 281414914146304; Item 0 63 0 281414914146304; Item 0 64 0 281414914146304; Item 0 65 0 281414914146304; Item 0 66 0 281414914146304; Item 0 67 0 281414914146304; Item 0 68 0 281414914146304; Item 0 69 0 281414914146304; Item 0 70 0 281414914146304; Item 0 71 0 281414914146304; Item 0 72 0 281414914146304; Item 0 73 0 281414914146304; Item 0 74 0 281414914146304; Item 0 75 0 281414914146304; Item 0 76 0 281414914146304; Item 0 77 0 281414914146304; Item 0 78 0 281414914146304; Item 0 79 0 281414914146304; Item 0 85 0 281414914146304; Item 0 91 0 281414914146304; Item 0 91 1 281414914146304; Item 0 92 0 281414914146304; Item 0 92 2 69242784409583616; Item 0 93 0 281414914146304; Item 0 94 0 281414914146304; Item 0 100 0 281414914146304; Item 0 106 0 281414914146304; Item 0 107 0 281414914146304; Item 0 111 0 281414914146304; Item 0 115 0 281414914146304; Item 0 121 0 281414914146304; Item 0 122 0 281414914146304; Item 0 127 0 281414914146304; Item 0 176 0 20829152840109128; Item 0 177 0 20829152840109128; Item 0 178 0 20829152840109128; Item 0 181 0 281414914146304; Item 0 182 0 281414914146304; Item 0 183 0 281414914146304; Item 0 203 0 844364867567616; Item 0 204 0 844364867567616; Item 0 205 0 844364867567616; Item 0 213 0 72; Item 0 222 0 20829152907099208; Item 0 224 0 20829152840109128; Item 0 225 0 72; Item 0 226 0 72; Item 0 227 0 844364867567616; Item 0 228 0 844364867567616; Item 0 229 0 72; Item 0 230 0 20829152840109128; Item 0 244 0 20829152840109128; Item 0 257 0 20829152840109128; Item 0 259 0 20829152840109128; Item 0 260 0 144115188075855872];
   [Item 0 94 2 69242784409583616; Item 0 224 0 20829152840109128];
   [Item 0 100 2 69242784409583616; Item 0 224 0 20829152840109128];
   [Item 0 106 2 69242784409583616; Item 0 129 1 393216; Item 0 223 0 69242784409583616];
   [Item 0 111 2 69242784409583616; Item 0 224 0 20829152840109128];
   [Item 0 115 2 69242784409583616; Item 0 224 0 20829152840109128];
   [Item 0 122 2 69242784409583616; Item 0 224 0 20829152840109128];
   [Item 0 127 2 69242784409583616; Item 0 174 0 20829152840109128; Item 0 175 0 20829152840109128; Item 0 254 0 20829152840109128; Item 0 255 0 20829152840109128];
   [Item 0 207 0 309200266480176200; Item 0 208 0 309200266480176200; Item 0 209 0 309200266480176200; Item 0 210 0 20969890328464456; Item 0 211 0 20969890328464456; Item 0 247 1 20969890328464456];
   [Item 0 207 0 309200266480176200; Item 0 208 0 309200266480176200; Item 0 209 0 309200266480176200; Item 0 210 0 20969890328464456; Item 0 211 0 20969890328464456; Item 0 248 1 20969890328464456];
   [Item 0 207 0 309200266480176200; Item 0 208 0 309200266480176200; Item 0 209 0 309200266480176200; Item 0 210 0 20969890328464456; Item 0 211 0 20969890328464456; Item 0 249 1 20969890328464456];
   [Item 0 207 0 309200266480176200; Item 0 208 0 309200266480176200; Item 0 209 0 309200266480176200; Item 0 210 0 20969890328464456; Item 0 211 0 20969890328464456; Item 0 250 1 20969890328464456];
   [Item 0 207 0 309200266480176200; Item 0 208 0 309200266480176200; Item 0 209 0 309200266480176200; Item 0 210 0 20969890328464456; Item 0 211 0 20969890328464456; Item 0 251 1 20969890328464456];
   [Item 0 207 0 309200266480176200; Item 0 208 0 309200266480176200; Item 0 209 0 309200266480176200; Item 0 210 0 20969890328464456; Item 0 211 0 20969890328464456; Item 0 252 1 20969890328464456];
   [Item 0 207 0 309200266480176200; Item 0 208 0 309200266480176200; Item 0 209 0 309200266480176200; Item 0 210 0 20969890328464456; Item 0 211 0 20969890328464456; Item 0 253 1 20969890328464456];
   [Item 0 207 0 309200266480176200; Item 0 208 0 309200266480176200; Item 0 209 0 309200266480176200; Item 0 210 0 20969890328464456; Item 0 211 0 20969890328464456; Item 0 254 1 20969890328464456];
   [Item 0 207 0 309200266480176200; Item 0 208 0 309200266480176200; Item 0 209 0 309200266480176200; Item 0 210 0 20969890328464456; Item 0 211 0 20969890328464456; Item 0 255 1 20969890328464456];
   [Item 0 207 0 288371113640067072; Item 0 208 0 288371113640067072; Item 0 209 0 288371113640067072; Item 0 210 0 140737488355328; Item 0 211 0 140737488355328; Item 0 245 1 140737488355328];
   [Item 0 207 0 288371113640067072; Item 0 208 0 288371113640067072; Item 0 209 0 288371113640067072; Item 0 210 0 140737488355328; Item 0 211 0 140737488355328; Item 0 246 1 140737488355328];
   [Item 0 34 2 69242784409583616; Item 0 49 0 20829152840109128; Item 0 50 0 20829152840109128; Item 0 51 0 20829152840109128; Item 0 52 0 20829152840109128; Item 0 53 0 20829152840109128; Item 0 54 0 20829152840109128; Item 0 55 0 20829152840109128; Item 0 56 0 20829152840109128; Item 0 57 0 20829152840109128; Item 0 58 0 20829152840109128; Item 0 59 0 20829152840109128; Item 0 60 0 20829152840109128; Item 0 232 0 20829152840109128; Item 0 233 0 20829152840109128; Item 0 234 0 20829152840109128; Item 0 235 0 20829152840109128; Item 0 236 0 20829152840109128; Item 0 237 0 20829152840109128; Item 0 238 0 20829152840109128; Item 0 239 0 20829152840109128; Item 0 240 0 20829152840109128; Item 0 241 0 20829152840109128; Item 0 242 0 20829152840109128; Item 0 243 0 20829152840109128];
   [Item 0 207 0 357473160561295616; Item 0 208 0 357473160561295616; Item 0 209 0 357473160561295616; Item 0 210 0 69242784409583872; Item 0 211 0 69242784409583872; Item 0 217 1 69242784409583872];
   [Item 0 207 0 288230429301932032; Item 0 208 0 288230429301932032; Item 0 209 0 288230429301932032; Item 0 210 0 53150220288; Item 0 211 0 53150220288; Item 0 263 1 53150220288];
   [Item 0 196 3 2814754330624072; Item 0 225 0 2814754330624072];
   [Item 0 197 1 2048; Item 0 267 0 2050];
   [Item 0 6 3 1; Item 0 10 0 1; Item 0 11 0 1; Item 0 12 0 1; Item 0 189 0 1; Item 0 261 0 72057594037927936];
   [Item 0 207 0 432345564227567616; Item 0 208 0 432345564227567616; Item 0 209 0 432345564227567616; Item 0 210 0 144115188075855872; Item 0 211 0 144115188075855872; Item 0 216 1 144115188075855872];
   [Item 0 207 0 288230376151711749; Item 0 208 0 288230376151711749; Item 0 209 0 288230376151711749; Item 0 210 0 5; Item 0 211 0 5; Item 0 219 1 5];
   [Item 0 207 0 288230376151711749; Item 0 208 0 288230376151711749; Item 0 209 0 288230376151711749; Item 0 210 0 5; Item 0 211 0 5; Item 0 220 1 5];
   [Item 0 207 0 288230376151711749; Item 0 208 0 288230376151711749; Item 0 209 0 288230376151711749; Item 0 210 0 5; Item 0 211 0 5; Item 0 221 1 5];
   [Item 0 184 1 5; Item 0 217 0 256];
   [Item 0 21 3 1; Item 0 25 0 1; Item 0 26 0 1; Item 0 27 0 1; Item 0 188 0 1; Item 0 189 0 1; Item 0 261 0 72057594037927936];
   [Item 0 43 3 69242784409583616; Item 0 44 0 422212465065984; Item 0 45 0 422212465065984; Item 0 46 0 422212465065984; Item 0 47 0 281474976710656; Item 0 48 0 281474976710656; Item 0 224 0 20829152840109128];
   [Item 0 207 0 309059528991820872; Item 0 208 0 309059528991820872; Item 0 209 0 309059528991820872; Item 0 210 0 20829152840109128; Item 0 211 0 20829152840109128; Item 0 224 1 20829152840109128];
   [Item 0 80 0 140737622573056; Item 0 81 1 140737622573056; Item 0 83 1 134217728; Item 0 224 0 20829152840109128];
   [Item 0 79 3 69242784409583616; Item 0 258 0 69242784409583616];
   [Item 0 34 0 140737622573056; Item 0 35 0 140737622573056; Item 0 36 0 140737622573056; Item 0 37 0 140737622573056; Item 0 43 0 140737622573056; Item 0 61 0 140737622573056; Item 0 62 0 140737622573056; Item 0 63 0 140737622573056; Item 0 64 0 140737622573056; Item 0 65 0 140737622573056; Item 0 66 0 140737622573056; Item 0 67 0 140737622573056; Item 0 68 0 140737622573056; Item 0 69 0 140737622573056; Item 0 70 0 140737622573056; Item 0 71 0 140737622573056; Item 0 72 0 140737622573056; Item 0 73 0 140737622573056; Item 0 74 0 140737622573056; Item 0 75 0 140737622573056; Item 0 76 0 140737622573056; Item 0 77 0 140737622573056; Item 0 78 0 140737622573056; Item 0 79 0 140737622573056; Item 0 80 1 140737622573056; Item 0 85 0 140737622573056; Item 0 91 0 140737622573056; Item 0 92 0 140737622573056; Item 0 93 0 140737622573056; Item 0 94 0 140737622573056; Item 0 100 0 140737622573056; Item 0 106 0 140737622573056; Item 0 107 0 140737622573056; Item 0 111 0 140737622573056; Item 0 115 0 140737622573056; Item 0 121 0 140737622573056; Item 0 122 0 140737622573056; Item 0 127 0 140737622573056; Item 0 176 0 20829152840109128; Item 0 177 0 20829152840109128; Item 0 178 0 20829152840109128; Item 0 181 0 140737622573056; Item 0 182 0 140737622573056; Item 0 183 0 140737622573056; Item 0 203 0 703687575994368; Item 0 204 0 703687575994368; Item 0 205 0 703687575994368; Item 0 213 0 72; Item 0 222 0 20829152907099208; Item 0 225 0 72; Item 0 226 0 72; Item 0 227 0 703687575994368; Item 0 228 0 703687575994368; Item 0 229 0 72; Item 0 230 0 20829152840109128; Item 0 244 0 20829152840109128; Item 0 257 0 20829152840109128; Item 0 259 0 20829152840109128; Item 0 260 0 144115188075855872];
   [Item 0 86 0 140737555464192; Item 0 87 1 140737555464192; Item 0 89 1 67108864; Item 0 224 0 20829152840109128];
   [Item 0 85 3 69242784409583616; Item 0 256 0 69242784409583616];
   [Item 0 34 0 140737555464192; Item 0 35 0 140737555464192; Item 0 36 0 140737555464192; Item 0 37 0 140737555464192; Item 0 43 0 140737555464192; Item 0 61 0 140737555464192; Item 0 62 0 140737555464192; Item 0 63 0 140737555464192; Item 0 64 0 140737555464192; Item 0 65 0 140737555464192; Item 0 66 0 140737555464192; Item 0 67 0 140737555464192; Item 0 68 0 140737555464192; Item 0 69 0 140737555464192; Item 0 70 0 140737555464192; Item 0 71 0 140737555464192; Item 0 72 0 140737555464192; Item 0 73 0 140737555464192; Item 0 74 0 140737555464192; Item 0 75 0 140737555464192; Item 0 76 0 140737555464192; Item 0 77 0 140737555464192; Item 0 78 0 140737555464192; Item 0 79 0 140737555464192; Item 0 85 0 140737555464192; Item 0 86 1 140737555464192; Item 0 91 0 140737555464192; Item 0 92 0 140737555464192; Item 0 93 0 140737555464192; Item 0 94 0 140737555464192; Item 0 100 0 140737555464192; Item 0 106 0 140737555464192; Item 0 107 0 140737555464192; Item 0 111 0 140737555464192; Item 0 115 0 140737555464192; Item 0 121 0 140737555464192; Item 0 122 0 140737555464192; Item 0 127 0 140737555464192; Item 0 176 0 20829152840109128; Item 0 177 0 20829152840109128; Item 0 178 0 20829152840109128; Item 0 181 0 140737555464192; Item 0 182 0 140737555464192; Item 0 183 0 140737555464192; Item 0 203 0 703687508885504; Item 0 204 0 703687508885504; Item 0 205 0 703687508885504; Item 0 213 0 72; Item 0 222 0 20829152907099208; Item 0 225 0 72; Item 0 226 0 72; Item 0 227 0 703687508885504; Item 0 228 0 703687508885504; Item 0 229 0 72; Item 0 230 0 20829152840109128; Item 0 244 0 20829152840109128; Item 0 257 0 20829152840109128; Item 0 259 0 20829152840109128; Item 0 260 0 144115188075855872];
   [Item 0 34 0 281474976710656; Item 0 35 0 281474976710656; Item 0 35 3 69242784409583616; Item 0 36 0 281474976710656; Item 0 37 0 281474976710656; Item 0 43 0 281474976710656; Item 0 61 0 281474976710656; Item 0 62 0 281474976710656; Item 0 63 0 281474976710656; Item 0 64 0 281474976710656; Item 0 65 0 281474976710656; Item 0 66 0 281474976710656; Item 0 67 0 281474976710656; Item 0 68 0 281474976710656; Item 0 69 0 281474976710656; Item 0 70 0 281474976710656; Item 0 71 0 281474976710656; Item 0 72 0 281474976710656; Item 0 73 0 281474976710656; Item 0 74 0 281474976710656; Item 0 75 0 281474976710656; Item 0 76 0 281474976710656; Item 0 77 0 281474976710656; Item 0 78 0 281474976710656; Item 0 79 0 281474976710656; Item 0 85 0 281474976710656; Item 0 91 0 281474976710656; Item 0 92 0 281474976710656; Item 0 93 0 281474976710656; Item 0 94 0 281474976710656; Item 0 100 0 281474976710656; Item 0 106 0 281474976710656; Item 0 107 0 281474976710656; Item 0 111 0 281474976710656; Item 0 115 0 281474976710656; Item 0 121 0 281474976710656; Item 0 122 0 281474976710656; Item 0 127 0 281474976710656; Item 0 176 0 20829152840109128; Item 0 177 0 20829152840109128; Item 0 178 0 20829152840109128; Item 0 181 0 281474976710656; Item 0 182 0 281474976710656; Item 0 183 0 281474976710656; Item 0 203 0 844424930131968; Item 0 204 0 844424930131968; Item 0 205 0 844424930131968; Item 0 213 0 72; Item 0 222 0 20829152907099208; Item 0 225 0 72; Item 0 226 0 72; Item 0 227 0 844424930131968; Item 0 228 0 844424930131968; Item 0 229 0 72; Item 0 230 0 20829152840109128; Item 0 244 0 20829152840109128; Item 0 257 0 20829152840109128; Item 0 259 0 20829152840109128; Item 0 260 0 144115188075855872];
   [Item 0 207 0 309059528991820872; Item 0 208 0 309059528991820872; Item 0 209 0 309059528991820872; Item 0 210 0 20829152840109128; Item 0 211 0 20829152840109128; Item 0 232 1 20829152840109128];
   [Item 0 207 0 309059528991820872; Item 0 208 0 309059528991820872; Item 0 209 0 309059528991820872; Item 0 210 0 20829152840109128; Item 0 211 0 20829152840109128; Item 0 233 1 20829152840109128];
   [Item 0 207 0 309059528991820872; Item 0 208 0 309059528991820872; Item 0 209 0 309059528991820872; Item 0 210 0 20829152840109128; Item 0 211 0 20829152840109128; Item 0 234 1 20829152840109128];
   [Item 0 207 0 309059528991820872; Item 0 208 0 309059528991820872; Item 0 209 0 309059528991820872; Item 0 210 0 20829152840109128; Item 0 211 0 20829152840109128; Item 0 235 1 20829152840109128];
   [Item 0 207 0 309059528991820872; Item 0 208 0 309059528991820872; Item 0 209 0 309059528991820872; Item 0 210 0 20829152840109128; Item 0 211 0 20829152840109128; Item 0 236 1 20829152840109128];
   [Item 0 207 0 309059528991820872; Item 0 208 0 309059528991820872; Item 0 209 0 309059528991820872; Item 0 210 0 20829152840109128; Item 0 211 0 20829152840109128; Item 0 237 1 20829152840109128];
   [Item 0 207 0 309059528991820872; Item 0 208 0 309059528991820872; Item 0 209 0 309059528991820872; Item 0 210 0 20829152840109128; Item 0 211 0 20829152840109128; Item 0 238 1 20829152840109128];
   [Item 0 207 0 309059528991820872; Item 0 208 0 309059528991820872; Item 0 209 0 309059528991820872; Item 0 210 0 20829152840109128; Item 0 211 0 20829152840109128; Item 0 239 1 20829152840109128];
   [Item 0 207 0 309059528991820872; Item 0 208 0 309059528991820872; Item 0 209 0 309059528991820872; Item 0 210 0 20829152840109128; Item 0 211 0 20829152840109128; Item 0 240 1 20829152840109128];
   [Item 0 207 0 309059528991820872; Item 0 208 0 309059528991820872; Item 0 209 0 309059528991820872; Item 0 210 0 20829152840109128; Item 0 211 0 20829152840109128; Item 0 241 1 20829152840109128];
   [Item 0 207 0 309059528991820872; Item 0 208 0 309059528991820872; Item 0 209 0 309059528991820872; Item 0 210 0 20829152840109128; Item 0 211 0 20829152840109128; Item 0 242 1 20829152840109128];
   [Item 0 207 0 309059528991820872; Item 0 208 0 309059528991820872; Item 0 209 0 309059528991820872; Item 0 210 0 20829152840109128; Item 0 211 0 20829152840109128; Item 0 243 1 20829152840109128];
   [Item 0 107 3 69242784409583616; Item 0 108 0 422212465065984; Item 0 109 1 422212465065984; Item 0 223 0 69242784409583616; Item 0 224 0 20829152840109128];
   [Item 0 139 2 422212465459200; Item 0 140 0 422212499013632; Item 0 141 1 422212499013632; Item 0 247 0 20829152840109128];
   [Item 0 143 2 422212465459200; Item 0 144 0 422212482236416; Item 0 145 1 422212482236416; Item 0 248 0 20829152840109128];
   [Item 0 147 2 422212465459200; Item 0 148 0 422212473847808; Item 0 149 1 422212473847808; Item 0 249 0 20829152840109128];
   [Item 0 151 2 422212465459200; Item 0 152 0 422212469653504; Item 0 153 1 422212469653504; Item 0 250 0 20829152840109128];
   [Item 0 155 2 422212465459200; Item 0 156 0 422212467556352; Item 0 157 1 422212467556352; Item 0 251 0 20829152840109128];
   [Item 0 159 2 422212465459200; Item 0 160 0 422212466507776; Item 0 161 1 422212466507776; Item 0 252 0 20829152840109128];
   [Item 0 163 2 422212465459200; Item 0 164 0 422212465983488; Item 0 165 1 422212465983488; Item 0 253 0 20829152840109128];
   [Item 0 34 0 422212465065984; Item 0 35 0 422212465065984; Item 0 36 0 422212465065984; Item 0 37 0 422212465065984; Item 0 43 0 422212465065984; Item 0 61 0 422212465065984; Item 0 62 0 422212465065984; Item 0 63 0 422212465065984; Item 0 64 0 422212465065984; Item 0 65 0 422212465065984; Item 0 66 0 422212465065984; Item 0 67 0 422212465065984; Item 0 68 0 422212465065984; Item 0 69 0 422212465065984; Item 0 70 0 422212465065984; Item 0 71 0 422212465065984; Item 0 72 0 422212465065984; Item 0 73 0 422212465065984; Item 0 74 0 422212465065984; Item 0 75 0 422212465065984; Item 0 76 0 422212465065984; Item 0 77 0 422212465065984; Item 0 78 0 422212465065984; Item 0 79 0 422212465065984; Item 0 85 0 422212465065984; Item 0 91 0 422212465065984; Item 0 92 0 422212465065984; Item 0 93 0 422212465065984; Item 0 94 0 422212465065984; Item 0 100 0 422212465065984; Item 0 106 0 422212465065984; Item 0 107 0 422212465065984; Item 0 108 1 422212465065984; Item 0 111 0 422212465065984; Item 0 115 0 422212465065984; Item 0 121 0 422212465065984; Item 0 122 0 422212465065984; Item 0 127 0 422212465065984; Item 0 176 0 20829152840109128; Item 0 177 0 20829152840109128; Item 0 178 0 20829152840109128; Item 0 181 0 422212465065984; Item 0 182 0 422212465065984; Item 0 183 0 422212465065984; Item 0 203 0 985162418487296; Item 0 204 0 985162418487296; Item 0 205 0 985162418487296; Item 0 213 0 72; Item 0 222 0 20829152907099208; Item 0 225 0 72; Item 0 226 0 72; Item 0 227 0 985162418487296; Item 0 228 0 985162418487296; Item 0 229 0 72; Item 0 230 0 20829152840109128; Item 0 244 0 20829152840109128; Item 0 257 0 20829152840109128; Item 0 259 0 20829152840109128; Item 0 260 0 144115188075855872];
   [Item 0 34 0 422212499013632; Item 0 35 0 422212499013632; Item 0 36 0 422212499013632; Item 0 37 0 422212499013632; Item 0 43 0 422212499013632; Item 0 61 0 422212499013632; Item 0 62 0 422212499013632; Item 0 63 0 422212499013632; Item 0 64 0 422212499013632; Item 0 65 0 422212499013632; Item 0 66 0 422212499013632; Item 0 67 0 422212499013632; Item 0 68 0 422212499013632; Item 0 69 0 422212499013632; Item 0 70 0 422212499013632; Item 0 71 0 422212499013632; Item 0 72 0 422212499013632; Item 0 73 0 422212499013632; Item 0 74 0 422212499013632; Item 0 75 0 422212499013632; Item 0 76 0 422212499013632; Item 0 77 0 422212499013632; Item 0 78 0 422212499013632; Item 0 79 0 422212499013632; Item 0 85 0 422212499013632; Item 0 91 0 422212499013632; Item 0 92 0 422212499013632; Item 0 93 0 422212499013632; Item 0 94 0 422212499013632; Item 0 100 0 422212499013632; Item 0 106 0 422212499013632; Item 0 107 0 422212499013632; Item 0 111 0 422212499013632; Item 0 115 0 422212499013632; Item 0 121 0 422212499013632; Item 0 122 0 422212499013632; Item 0 127 0 422212499013632; Item 0 140 1 422212499013632; Item 0 176 0 20829152840109128; Item 0 177 0 20829152840109128; Item 0 178 0 20829152840109128; Item 0 181 0 422212499013632; Item 0 182 0 422212499013632; Item 0 183 0 422212499013632; Item 0 203 0 985162452434944; Item 0 204 0 985162452434944; Item 0 205 0 985162452434944; Item 0 213 0 72; Item 0 222 0 20829152907099208; Item 0 225 0 72; Item 0 226 0 72; Item 0 227 0 985162452434944; Item 0 228 0 985162452434944; Item 0 229 0 72; Item 0 230 0 20829152840109128; Item 0 244 0 20829152840109128; Item 0 257 0 20829152840109128; Item 0 259 0 20829152840109128; Item 0 260 0 144115188075855872];
   [Item 0 34 0 422212482236416; Item 0 35 0 422212482236416; Item 0 36 0 422212482236416; Item 0 37 0 422212482236416; Item 0 43 0 422212482236416; Item 0 61 0 422212482236416; Item 0 62 0 422212482236416; Item 0 63 0 422212482236416; Item 0 64 0 422212482236416; Item 0 65 0 422212482236416; Item 0 66 0 422212482236416; Item 0 67 0 422212482236416; Item 0 68 0 422212482236416; Item 0 69 0 422212482236416; Item 0 70 0 422212482236416; Item 0 71 0 422212482236416; Item 0 72 0 422212482236416; Item 0 73 0 422212482236416; Item 0 74 0 422212482236416; Item 0 75 0 422212482236416; Item 0 76 0 422212482236416; Item 0 77 0 422212482236416; Item 0 78 0 422212482236416; Item 0 79 0 422212482236416; Item 0 85 0 422212482236416; Item 0 91 0 422212482236416; Item 0 92 0 422212482236416; Item 0 93 0 422212482236416; Item 0 94 0 422212482236416; Item 0 100 0 422212482236416; Item 0 106 0 422212482236416; Item 0 107 0 422212482236416; Item 0 111 0 422212482236416; Item 0 115 0 422212482236416; Item 0 121 0 422212482236416; Item 0 122 0 422212482236416; Item 0 127 0 422212482236416; Item 0 144 1 422212482236416; Item 0 176 0 20829152840109128; Item 0 177 0 20829152840109128; Item 0 178 0 20829152840109128; Item 0 181 0 422212482236416; Item 0 182 0 422212482236416; Item 0 183 0 422212482236416; Item 0 203 0 985162435657728; Item 0 204 0 985162435657728; Item 0 205 0 985162435657728; Item 0 213 0 72; Item 0 222 0 20829152907099208; Item 0 225 0 72; Item 0 226 0 72; Item 0 227 0 985162435657728; Item 0 228 0 985162435657728; Item 0 229 0 72; Item 0 230 0 20829152840109128; Item 0 244 0 20829152840109128; Item 0 257 0 20829152840109128; Item 0 259 0 20829152840109128; Item 0 260 0 144115188075855872];
   [Item 0 34 0 422212473847808; Item 0 35 0 422212473847808; Item 0 36 0 422212473847808; Item 0 37 0 422212473847808; Item 0 43 0 422212473847808; Item 0 61 0 422212473847808; Item 0 62 0 422212473847808; Item 0 63 0 422212473847808; Item 0 64 0 422212473847808; Item 0 65 0 422212473847808; Item 0 66 0 422212473847808; Item 0 67 0 422212473847808; Item 0 68 0 422212473847808; Item 0 69 0 422212473847808; Item 0 70 0 422212473847808; Item 0 71 0 422212473847808; Item 0 72 0 422212473847808; Item 0 73 0 422212473847808; Item 0 74 0 422212473847808; Item 0 75 0 422212473847808; Item 0 76 0 422212473847808; Item 0 77 0 422212473847808; Item 0 78 0 422212473847808; Item 0 79 0 422212473847808; Item 0 85 0 422212473847808; Item 0 91 0 422212473847808; Item 0 92 0 422212473847808; Item 0 93 0 422212473847808; Item 0 94 0 422212473847808; Item 0 100 0 422212473847808; Item 0 106 0 422212473847808; Item 0 107 0 422212473847808; Item 0 111 0 422212473847808; Item 0 115 0 422212473847808; Item 0 121 0 422212473847808; Item 0 122 0 422212473847808; Item 0 127 0 422212473847808; Item 0 148 1 422212473847808; Item 0 176 0 20829152840109128; Item 0 177 0 20829152840109128; Item 0 178 0 20829152840109128; Item 0 181 0 422212473847808; Item 0 182 0 422212473847808; Item 0 183 0 422212473847808; Item 0 203 0 985162427269120; Item 0 204 0 985162427269120; Item 0 205 0 985162427269120; Item 0 213 0 72; Item 0 222 0 20829152907099208; Item 0 225 0 72; Item 0 226 0 72; Item 0 227 0 985162427269120; Item 0 228 0 985162427269120; Item 0 229 0 72; Item 0 230 0 20829152840109128; Item 0 244 0 20829152840109128; Item 0 257 0 20829152840109128; Item 0 259 0 20829152840109128; Item 0 260 0 144115188075855872];
   [Item 0 34 0 422212469653504; Item 0 35 0 422212469653504; Item 0 36 0 422212469653504; Item 0 37 0 422212469653504; Item 0 43 0 422212469653504; Item 0 61 0 422212469653504; Item 0 62 0 422212469653504; Item 0 63 0 422212469653504; Item 0 64 0 422212469653504; Item 0 65 0 422212469653504; Item 0 66 0 422212469653504; Item 0 67 0 422212469653504; Item 0 68 0 422212469653504; Item 0 69 0 422212469653504; Item 0 70 0 422212469653504; Item 0 71 0 422212469653504; Item 0 72 0 422212469653504; Item 0 73 0 422212469653504; Item 0 74 0 422212469653504; Item 0 75 0 422212469653504; Item 0 76 0 422212469653504; Item 0 77 0 422212469653504; Item 0 78 0 422212469653504; Item 0 79 0 422212469653504; Item 0 85 0 422212469653504; Item 0 91 0 422212469653504; Item 0 92 0 422212469653504; Item 0 93 0 422212469653504; Item 0 94 0 422212469653504; Item 0 100 0 422212469653504; Item 0 106 0 422212469653504; Item 0 107 0 422212469653504; Item 0 111 0 422212469653504; Item 0 115 0 422212469653504; Item 0 121 0 422212469653504; Item 0 122 0 422212469653504; Item 0 127 0 422212469653504; Item 0 152 1 422212469653504; Item 0 176 0 20829152840109128; Item 0 177 0 20829152840109128; Item 0 178 0 20829152840109128; Item 0 181 0 422212469653504; Item 0 182 0 422212469653504; Item 0 183 0 422212469653504; Item 0 203 0 985162423074816; Item 0 204 0 985162423074816; Item 0 205 0 985162423074816; Item 0 213 0 72; Item 0 222 0 20829152907099208; Item 0 225 0 72; Item 0 226 0 72; Item 0 227 0 985162423074816; Item 0 228 0 985162423074816; Item 0 229 0 72; Item 0 230 0 20829152840109128; Item 0 244 0 20829152840109128; Item 0 257 0 20829152840109128; Item 0 259 0 20829152840109128; Item 0 260 0 144115188075855872];
   [Item 0 34 0 422212467556352; Item 0 35 0 422212467556352; Item 0 36 0 422212467556352; Item 0 37 0 422212467556352; Item 0 43 0 422212467556352; Item 0 61 0 422212467556352; Item 0 62 0 422212467556352; Item 0 63 0 422212467556352; Item 0 64 0 422212467556352; Item 0 65 0 422212467556352; Item 0 66 0 422212467556352; Item 0 67 0 422212467556352; Item 0 68 0 422212467556352; Item 0 69 0 422212467556352; Item 0 70 0 422212467556352; Item 0 71 0 422212467556352; Item 0 72 0 422212467556352; Item 0 73 0 422212467556352; Item 0 74 0 422212467556352; Item 0 75 0 422212467556352; Item 0 76 0 422212467556352; Item 0 77 0 422212467556352; Item 0 78 0 422212467556352; Item 0 79 0 422212467556352; Item 0 85 0 422212467556352; Item 0 91 0 422212467556352; Item 0 92 0 422212467556352; Item 0 93 0 422212467556352; Item 0 94 0 422212467556352; Item 0 100 0 422212467556352; Item 0 106 0 422212467556352; Item 0 107 0 422212467556352; Item 0 111 0 422212467556352; Item 0 115 0 422212467556352; Item 0 121 0 422212467556352; Item 0 122 0 422212467556352; Item 0 127 0 422212467556352; Item 0 156 1 422212467556352; Item 0 176 0 20829152840109128; Item 0 177 0 20829152840109128; Item 0 178 0 20829152840109128; Item 0 181 0 422212467556352; Item 0 182 0 422212467556352; Item 0 183 0 422212467556352; Item 0 203 0 985162420977664; Item 0 204 0 985162420977664; Item 0 205 0 985162420977664; Item 0 213 0 72; Item 0 222 0 20829152907099208; Item 0 225 0 72; Item 0 226 0 72; Item 0 227 0 985162420977664; Item 0 228 0 985162420977664; Item 0 229 0 72; Item 0 230 0 20829152840109128; Item 0 244 0 20829152840109128; Item 0 257 0 20829152840109128; Item 0 259 0 20829152840109128; Item 0 260 0 144115188075855872];
   [Item 0 34 0 422212466507776; Item 0 35 0 422212466507776; Item 0 36 0 422212466507776; Item 0 37 0 422212466507776; Item 0 43 0 422212466507776; Item 0 61 0 422212466507776; Item 0 62 0 422212466507776; Item 0 63 0 422212466507776; Item 0 64 0 422212466507776; Item 0 65 0 422212466507776; Item 0 66 0 422212466507776; Item 0 67 0 422212466507776; Item 0 68 0 422212466507776; Item 0 69 0 422212466507776; Item 0 70 0 422212466507776; Item 0 71 0 422212466507776; Item 0 72 0 422212466507776; Item 0 73 0 422212466507776; Item 0 74 0 422212466507776; Item 0 75 0 422212466507776; Item 0 76 0 422212466507776; Item 0 77 0 422212466507776; Item 0 78 0 422212466507776; Item 0 79 0 422212466507776; Item 0 85 0 422212466507776; Item 0 91 0 422212466507776; Item 0 92 0 422212466507776; Item 0 93 0 422212466507776; Item 0 94 0 422212466507776; Item 0 100 0 422212466507776; Item 0 106 0 422212466507776; Item 0 107 0 422212466507776; Item 0 111 0 422212466507776; Item 0 115 0 422212466507776; Item 0 121 0 422212466507776; Item 0 122 0 422212466507776; Item 0 127 0 422212466507776; Item 0 160 1 422212466507776; Item 0 176 0 20829152840109128; Item 0 177 0 20829152840109128; Item 0 178 0 20829152840109128; Item 0 181 0 422212466507776; Item 0 182 0 422212466507776; Item 0 183 0 422212466507776; Item 0 203 0 985162419929088; Item 0 204 0 985162419929088; Item 0 205 0 985162419929088; Item 0 213 0 72; Item 0 222 0 20829152907099208; Item 0 225 0 72; Item 0 226 0 72; Item 0 227 0 985162419929088; Item 0 228 0 985162419929088; Item 0 229 0 72; Item 0 230 0 20829152840109128; Item 0 244 0 20829152840109128; Item 0 257 0 20829152840109128; Item 0 259 0 20829152840109128; Item 0 260 0 144115188075855872];
   [Item 0 34 0 422212465983488; Item 0 35 0 422212465983488; Item 0 36 0 422212465983488; Item 0 37 0 422212465983488; Item 0 43 0 422212465983488; Item 0 61 0 422212465983488; Item 0 62 0 422212465983488; Item 0 63 0 422212465983488; Item 0 64 0 422212465983488; Item 0 65 0 422212465983488; Item 0 66 0 422212465983488; Item 0 67 0 422212465983488; Item 0 68 0 422212465983488; Item 0 69 0 422212465983488; Item 0 70 0 422212465983488; Item 0 71 0 422212465983488; Item 0 72 0 422212465983488; Item 0 73 0 422212465983488; Item 0 74 0 422212465983488; Item 0 75 0 422212465983488; Item 0 76 0 422212465983488; Item 0 77 0 422212465983488; Item 0 78 0 422212465983488; Item 0 79 0 422212465983488; Item 0 85 0 422212465983488; Item 0 91 0 422212465983488; Item 0 92 0 422212465983488; Item 0 93 0 422212465983488; Item 0 94 0 422212465983488; Item 0 100 0 422212465983488; Item 0 106 0 422212465983488; Item 0 107 0 422212465983488; Item 0 111 0 422212465983488; Item 0 115 0 422212465983488; Item 0 121 0 422212465983488; Item 0 122 0 422212465983488; Item 0 127 0 422212465983488; Item 0 164 1 422212465983488; Item 0 176 0 20829152840109128; Item 0 177 0 20829152840109128; Item 0 178 0 20829152840109128; Item 0 181 0 422212465983488; Item 0 182 0 422212465983488; Item 0 183 0 422212465983488; Item 0 203 0 985162419404800; Item 0 204 0 985162419404800; Item 0 205 0 985162419404800; Item 0 213 0 72; Item 0 222 0 20829152907099208; Item 0 225 0 72; Item 0 226 0 72; Item 0 227 0 985162419404800; Item 0 228 0 985162419404800; Item 0 229 0 72; Item 0 230 0 20829152840109128; Item 0 244 0 20829152840109128; Item 0 257 0 20829152840109128; Item 0 259 0 20829152840109128; Item 0 260 0 144115188075855872];
   [Item 0 38 0 422212465065984; Item 0 39 1 422212465065984; Item 0 41 1 281474976710656; Item 0 224 0 20829152840109128];
   [Item 0 37 3 69242784409583616; Item 0 223 0 69242784409583616];
   [Item 0 34 0 422212465065984; Item 0 35 0 422212465065984; Item 0 36 0 422212465065984; Item 0 37 0 422212465065984; Item 0 38 1 422212465065984; Item 0 43 0 422212465065984; Item 0 61 0 422212465065984; Item 0 62 0 422212465065984; Item 0 63 0 422212465065984; Item 0 64 0 422212465065984; Item 0 65 0 422212465065984; Item 0 66 0 422212465065984; Item 0 67 0 422212465065984; Item 0 68 0 422212465065984; Item 0 69 0 422212465065984; Item 0 70 0 422212465065984; Item 0 71 0 422212465065984; Item 0 72 0 422212465065984; Item 0 73 0 422212465065984; Item 0 74 0 422212465065984; Item 0 75 0 422212465065984; Item 0 76 0 422212465065984; Item 0 77 0 422212465065984; Item 0 78 0 422212465065984; Item 0 79 0 422212465065984; Item 0 85 0 422212465065984; Item 0 91 0 422212465065984; Item 0 92 0 422212465065984; Item 0 93 0 422212465065984; Item 0 94 0 422212465065984; Item 0 100 0 422212465065984; Item 0 106 0 422212465065984; Item 0 107 0 422212465065984; Item 0 111 0 422212465065984; Item 0 115 0 422212465065984; Item 0 121 0 422212465065984; Item 0 122 0 422212465065984; Item 0 127 0 422212465065984; Item 0 176 0 20829152840109128; Item 0 177 0 20829152840109128; Item 0 178 0 20829152840109128; Item 0 181 0 422212465065984; Item 0 182 0 422212465065984; Item 0 183 0 422212465065984; Item 0 203 0 985162418487296; Item 0 204 0 985162418487296; Item 0 205 0 985162418487296; Item 0 213 0 72; Item 0 222 0 20829152907099208; Item 0 225 0 72; Item 0 226 0 72; Item 0 227 0 985162418487296; Item 0 228 0 985162418487296; Item 0 229 0 72; Item 0 230 0 20829152840109128; Item 0 244 0 20829152840109128; Item 0 257 0 20829152840109128; Item 0 259 0 20829152840109128; Item 0 260 0 144115188075855872];
   [Item 0 34 0 281474976710656; Item 0 35 0 281474976710656; Item 0 36 0 281474976710656; Item 0 37 0 281474976710656; Item 0 43 0 281474976710656; Item 0 61 0 281474976710656; Item 0 62 0 281474976710656; Item 0 63 0 281474976710656; Item 0 64 0 281474976710656; Item 0 65 0 281474976710656; Item 0 66 0 281474976710656; Item 0 67 0 281474976710656; Item 0 68 0 281474976710656; Item 0 69 0 281474976710656; Item 0 70 0 281474976710656; Item 0 71 0 281474976710656; Item 0 72 0 281474976710656; Item 0 73 0 281474976710656; Item 0 74 0 281474976710656; Item 0 75 0 281474976710656; Item 0 76 0 281474976710656; Item 0 77 0 281474976710656; Item 0 78 0 281474976710656; Item 0 79 0 281474976710656; Item 0 85 0 281474976710656; Item 0 91 0 281474976710656; Item 0 92 0 281474976710656; Item 0 92 3 69242784409583616; Item 0 93 0 281474976710656; Item 0 94 0 281474976710656; Item 0 100 0 281474976710656; Item 0 106 0 281474976710656; Item 0 107 0 281474976710656; Item 0 111 0 281474976710656; Item 0 115 0 281474976710656; Item 0 121 0 281474976710656; Item 0 122 0 281474976710656; Item 0 127 0 281474976710656; Item 0 176 0 20829152840109128; Item 0 177 0 20829152840109128; Item 0 178 0 20829152840109128; Item 0 181 0 281474976710656; Item 0 182 0 281474976710656; Item 0 183 0 281474976710656; Item 0 203 0 844424930131968; Item 0 204 0 844424930131968; Item 0 205 0 844424930131968; Item 0 213 0 72; Item 0 222 0 20829152907099208; Item 0 225 0 72; Item 0 226 0 72; Item 0 227 0 844424930131968; Item 0 228 0 844424930131968; Item 0 229 0 72; Item 0 230 0 20829152840109128; Item 0 244 0 20829152840109128; Item 0 257 0 20829152840109128; Item 0 259 0 20829152840109128; Item 0 260 0 144115188075855872];
   [Item 0 34 0 422212465065984; Item 0 35 0 422212465065984; Item 0 36 0 422212465065984; Item 0 37 0 422212465065984; Item 0 43 0 422212465065984; Item 0 61 0 422212465065984; Item 0 62 0 422212465065984; Item 0 63 0 422212465065984; Item 0 64 0 422212465065984; Item 0 65 0 422212465065984; Item 0 66 0 422212465065984; Item 0 67 0 422212465065984; Item 0 68 0 422212465065984; Item 0 69 0 422212465065984; Item 0 70 0 422212465065984; Item 0 71 0 422212465065984; Item 0 72 0 422212465065984; Item 0 73 0 422212465065984; Item 0 74 0 422212465065984; Item 0 75 0 422212465065984; Item 0 76 0 422212465065984; Item 0 77 0 422212465065984; Item 0 78 0 422212465065984; Item 0 79 0 422212465065984; Item 0 85 0 422212465065984; Item 0 91 0 422212465065984; Item 0 92 0 422212465065984; Item 0 93 0 422212465065984; Item 0 94 0 422212465065984; Item 0 94 3 69242784409583616; Item 0 100 0 422212465065984; Item 0 106 0 422212465065984; Item 0 107 0 422212465065984; Item 0 111 0 422212465065984; Item 0 115 0 422212465065984; Item 0 121 0 422212465065984; Item 0 122 0 422212465065984; Item 0 127 0 422212465065984; Item 0 176 0 20829152840109128; Item 0 177 0 20829152840109128; Item 0 178 0 20829152840109128; Item 0 181 0 422212465065984; Item 0 182 0 422212465065984; Item 0 183 0 422212465065984; Item 0 203 0 985162418487296; Item 0 204 0 985162418487296; Item 0 205 0 985162418487296; Item 0 213 0 72; Item 0 222 0 20829152907099208; Item 0 225 0 72; Item 0 226 0 72; Item 0 227 0 985162418487296; Item 0 228 0 985162418487296; Item 0 229 0 72; Item 0 230 0 20829152840109128; Item 0 244 0 20829152840109128; Item 0 257 0 20829152840109128; Item 0 259 0 20829152840109128; Item 0 260 0 144115188075855872];
   [Item 0 34 0 422212465065984; Item 0 35 0 422212465065984; Item 0 36 0 422212465065984; Item 0 37 0 422212465065984; Item 0 43 0 422212465065984; Item 0 61 0 422212465065984; Item 0 62 0 422212465065984; Item 0 63 0 422212465065984; Item 0 64 0 422212465065984; Item 0 65 0 422212465065984; Item 0 66 0 422212465065984; Item 0 67 0 422212465065984; Item 0 68 0 422212465065984; Item 0 69 0 422212465065984; Item 0 70 0 422212465065984; Item 0 71 0 422212465065984; Item 0 72 0 422212465065984; Item 0 73 0 422212465065984; Item 0 74 0 422212465065984; Item 0 75 0 422212465065984; Item 0 76 0 422212465065984; Item 0 77 0 422212465065984; Item 0 78 0 422212465065984; Item 0 79 0 422212465065984; Item 0 85 0 422212465065984; Item 0 91 0 422212465065984; Item 0 92 0 422212465065984; Item 0 93 0 422212465065984; Item 0 94 0 422212465065984; Item 0 100 0 422212465065984; Item 0 100 3 69242784409583616; Item 0 106 0 422212465065984; Item 0 107 0 422212465065984; Item 0 111 0 422212465065984; Item 0 115 0 422212465065984; Item 0 121 0 422212465065984; Item 0 122 0 422212465065984; Item 0 127 0 422212465065984; Item 0 176 0 20829152840109128; Item 0 177 0 20829152840109128; Item 0 178 0 20829152840109128; Item 0 181 0 422212465065984; Item 0 182 0 422212465065984; Item 0 183 0 422212465065984; Item 0 203 0 985162418487296; Item 0 204 0 985162418487296; Item 0 205 0 985162418487296; Item 0 213 0 72; Item 0 222 0 20829152907099208; Item 0 225 0 72; Item 0 226 0 72; Item 0 227 0 985162418487296; Item 0 228 0 985162418487296; Item 0 229 0 72; Item 0 230 0 20829152840109128; Item 0 244 0 20829152840109128; Item 0 257 0 20829152840109128; Item 0 259 0 20829152840109128; Item 0 260 0 144115188075855872];
   [Item 0 207 0 357473160561295360; Item 0 208 0 357473160561295360; Item 0 209 0 357473160561295360; Item 0 210 0 69242784409583616; Item 0 211 0 69242784409583616; Item 0 223 1 69242784409583616];
   [Item 0 34 0 140737488355328; Item 0 35 0 140737488355328; Item 0 36 0 140737488355328; Item 0 37 0 140737488355328; Item 0 43 0 140737488355328; Item 0 61 0 140737488355328; Item 0 62 0 140737488355328; Item 0 63 0 140737488355328; Item 0 64 0 140737488355328; Item 0 65 0 140737488355328; Item 0 66 0 140737488355328; Item 0 67 0 140737488355328; Item 0 68 0 140737488355328; Item 0 69 0 140737488355328; Item 0 70 0 140737488355328; Item 0 71 0 140737488355328; Item 0 72 0 140737488355328; Item 0 73 0 140737488355328; Item 0 74 0 140737488355328; Item 0 75 0 140737488355328; Item 0 76 0 140737488355328; Item 0 77 0 140737488355328; Item 0 78 0 140737488355328; Item 0 79 0 140737488355328; Item 0 85 0 140737488355328; Item 0 91 0 140737488355328; Item 0 92 0 140737488355328; Item 0 93 0 140737488355328; Item 0 94 0 140737488355328; Item 0 100 0 140737488355328; Item 0 106 0 140737488355328; Item 0 107 0 140737488355328; Item 0 111 0 140737488355328; Item 0 111 3 69242784409583616; Item 0 115 0 140737488355328; Item 0 121 0 140737488355328; Item 0 122 0 140737488355328; Item 0 127 0 140737488355328; Item 0 176 0 20829152840109128; Item 0 177 0 20829152840109128; Item 0 178 0 20829152840109128; Item 0 181 0 140737488355328; Item 0 182 0 140737488355328; Item 0 183 0 140737488355328; Item 0 203 0 703687441776640; Item 0 204 0 703687441776640; Item 0 205 0 703687441776640; Item 0 213 0 72; Item 0 222 0 20829152907099208; Item 0 225 0 72; Item 0 226 0 72; Item 0 227 0 703687441776640; Item 0 228 0 703687441776640; Item 0 229 0 72; Item 0 230 0 20829152840109128; Item 0 244 0 20829152840109128; Item 0 257 0 20829152840109128; Item 0 259 0 20829152840109128; Item 0 260 0 144115188075855872];
   [Item 0 34 0 422212465065984; Item 0 35 0 422212465065984; Item 0 36 0 422212465065984; Item 0 37 0 422212465065984; Item 0 43 0 422212465065984; Item 0 61 0 422212465065984; Item 0 62 0 422212465065984; Item 0 63 0 422212465065984; Item 0 64 0 422212465065984; Item 0 65 0 422212465065984; Item 0 66 0 422212465065984; Item 0 67 0 422212465065984; Item 0 68 0 422212465065984; Item 0 69 0 422212465065984; Item 0 70 0 422212465065984; Item 0 71 0 422212465065984; Item 0 72 0 422212465065984; Item 0 73 0 422212465065984; Item 0 74 0 422212465065984; Item 0 75 0 422212465065984; Item 0 76 0 422212465065984; Item 0 77 0 422212465065984; Item 0 78 0 422212465065984; Item 0 79 0 422212465065984; Item 0 85 0 422212465065984; Item 0 91 0 422212465065984; Item 0 92 0 422212465065984; Item 0 93 0 422212465065984; Item 0 94 0 422212465065984; Item 0 100 0 422212465065984; Item 0 106 0 422212465065984; Item 0 107 0 422212465065984; Item 0 111 0 422212465065984; Item 0 115 0 422212465065984; Item 0 115 3 69242784409583616; Item 0 121 0 422212465065984; Item 0 122 0 422212465065984; Item 0 127 0 422212465065984; Item 0 176 0 20829152840109128; Item 0 177 0 20829152840109128; Item 0 178 0 20829152840109128; Item 0 181 0 422212465065984; Item 0 182 0 422212465065984; Item 0 183 0 422212465065984; Item 0 203 0 985162418487296; Item 0 204 0 985162418487296; Item 0 205 0 985162418487296; Item 0 213 0 72; Item 0 222 0 20829152907099208; Item 0 225 0 72; Item 0 226 0 72; Item 0 227 0 985162418487296; Item 0 228 0 985162418487296; Item 0 229 0 72; Item 0 230 0 20829152840109128; Item 0 244 0 20829152840109128; Item 0 257 0 20829152840109128; Item 0 259 0 20829152840109128; Item 0 260 0 144115188075855872];
   [Item 0 34 0 140737554939904; Item 0 35 0 140737554939904; Item 0 36 0 140737554939904; Item 0 37 0 140737554939904; Item 0 43 0 140737554939904; Item 0 61 0 140737554939904; Item 0 62 0 140737554939904; Item 0 63 0 140737554939904; Item 0 64 0 140737554939904; Item 0 65 0 140737554939904; Item 0 66 0 140737554939904; Item 0 67 0 140737554939904; Item 0 68 0 140737554939904; Item 0 69 0 140737554939904; Item 0 70 0 140737554939904; Item 0 71 0 140737554939904; Item 0 72 0 140737554939904; Item 0 73 0 140737554939904; Item 0 74 0 140737554939904; Item 0 75 0 140737554939904; Item 0 76 0 140737554939904; Item 0 77 0 140737554939904; Item 0 78 0 140737554939904; Item 0 79 0 140737554939904; Item 0 85 0 140737554939904; Item 0 91 0 140737554939904; Item 0 92 0 140737554939904; Item 0 93 0 140737554939904; Item 0 94 0 140737554939904; Item 0 100 0 140737554939904; Item 0 106 0 140737554939904; Item 0 107 0 140737554939904; Item 0 111 0 140737554939904; Item 0 115 0 140737554939904; Item 0 121 0 140737554939904; Item 0 122 0 140737554939904; Item 0 122 3 69242784409583616; Item 0 123 0 140737488355328; Item 0 124 0 140737488355328; Item 0 127 0 140737554939904; Item 0 132 0 140737488355328; Item 0 133 0 140737488355328; Item 0 134 0 140737488355328; Item 0 135 0 140737488355328; Item 0 136 0 140737488355328; Item 0 137 0 140737488355328; Item 0 138 0 140737488355328; Item 0 139 0 140737488355328; Item 0 143 0 140737488355328; Item 0 147 0 140737488355328; Item 0 151 0 140737488355328; Item 0 155 0 140737488355328; Item 0 159 0 140737488355328; Item 0 163 0 140737488355328; Item 0 176 0 20829152840109128; Item 0 177 0 20829152840109128; Item 0 178 0 20829152840109128; Item 0 181 0 140737554939904; Item 0 182 0 140737554939904; Item 0 183 0 140737554939904; Item 0 203 0 703687508361216; Item 0 204 0 703687508361216; Item 0 205 0 703687508361216; Item 0 213 0 72; Item 0 222 0 20829152907099208; Item 0 225 0 72; Item 0 226 0 72; Item 0 227 0 703687508361216; Item 0 228 0 703687508361216; Item 0 229 0 72; Item 0 230 0 20829152840109128; Item 0 244 0 20829152840109128; Item 0 257 0 20829152840109128; Item 0 259 0 20829152840109128; Item 0 260 0 144115188075855872];
   [Item 0 34 0 281475043295232; Item 0 35 0 281475043295232; Item 0 36 0 281475043295232; Item 0 37 0 281475043295232; Item 0 43 0 281475043295232; Item 0 61 0 281475043295232; Item 0 62 0 281475043295232; Item 0 63 0 281475043295232; Item 0 64 0 281475043295232; Item 0 65 0 281475043295232; Item 0 66 0 281475043295232; Item 0 67 0 281475043295232; Item 0 68 0 281475043295232; Item 0 69 0 281475043295232; Item 0 70 0 281475043295232; Item 0 71 0 281475043295232; Item 0 72 0 281475043295232; Item 0 73 0 281475043295232; Item 0 74 0 281475043295232; Item 0 75 0 281475043295232; Item 0 76 0 281475043295232; Item 0 77 0 281475043295232; Item 0 78 0 281475043295232; Item 0 79 0 281475043295232; Item 0 85 0 281475043295232; Item 0 91 0 281475043295232; Item 0 92 0 281475043295232; Item 0 93 0 281475043295232; Item 0 94 0 281475043295232; Item 0 100 0 281475043295232; Item 0 106 0 281475043295232; Item 0 107 0 281475043295232; Item 0 111 0 281475043295232; Item 0 115 0 281475043295232; Item 0 121 0 281475043295232; Item 0 122 0 281475043295232; Item 0 127 0 281475043295232; Item 0 127 3 69242784409583616; Item 0 130 0 281474976710656; Item 0 131 0 281474976710656; Item 0 132 0 281474976710656; Item 0 133 0 281474976710656; Item 0 134 0 281474976710656; Item 0 135 0 281474976710656; Item 0 136 0 281474976710656; Item 0 137 0 281474976710656; Item 0 138 0 281474976710656; Item 0 139 0 281474976710656; Item 0 143 0 281474976710656; Item 0 147 0 281474976710656; Item 0 151 0 281474976710656; Item 0 155 0 281474976710656; Item 0 159 0 281474976710656; Item 0 163 0 281474976710656; Item 0 176 0 20829152840109128; Item 0 177 0 20829152840109128; Item 0 178 0 20829152840109128; Item 0 181 0 281475043295232; Item 0 182 0 281475043295232; Item 0 183 0 281475043295232; Item 0 203 0 844424996716544; Item 0 204 0 844424996716544; Item 0 205 0 844424996716544; Item 0 213 0 72; Item 0 222 0 20829152907099208; Item 0 225 0 72; Item 0 226 0 72; Item 0 227 0 844424996716544; Item 0 228 0 844424996716544; Item 0 229 0 72; Item 0 230 0 20829152840109128; Item 0 244 0 20829152840109128; Item 0 257 0 20829152840109128; Item 0 259 0 20829152840109128; Item 0 260 0 144115188075855872];
   [Item 0 34 0 1125899906842624; Item 0 34 3 69242784409583616; Item 0 35 0 1125899906842624; Item 0 36 0 1125899906842624; Item 0 37 0 1125899906842624; Item 0 43 0 1125899906842624; Item 0 61 0 1125899906842624; Item 0 62 0 1125899906842624; Item 0 63 0 1125899906842624; Item 0 64 0 1125899906842624; Item 0 65 0 1125899906842624; Item 0 66 0 1125899906842624; Item 0 67 0 1125899906842624; Item 0 68 0 1125899906842624; Item 0 69 0 1125899906842624; Item 0 70 0 1125899906842624; Item 0 71 0 1125899906842624; Item 0 72 0 1125899906842624; Item 0 73 0 1125899906842624; Item 0 74 0 1125899906842624; Item 0 75 0 1125899906842624; Item 0 76 0 1125899906842624; Item 0 77 0 1125899906842624; Item 0 78 0 1125899906842624; Item 0 79 0 1125899906842624; Item 0 85 0 1125899906842624; Item 0 91 0 1125899906842624; Item 0 92 0 1125899906842624; Item 0 93 0 1125899906842624; Item 0 94 0 1125899906842624; Item 0 100 0 1125899906842624; Item 0 106 0 1125899906842624; Item 0 107 0 1125899906842624; Item 0 111 0 1125899906842624; Item 0 115 0 1125899906842624; Item 0 121 0 1125899906842624; Item 0 122 0 1125899906842624; Item 0 127 0 1125899906842624; Item 0 176 0 20829152840109128; Item 0 177 0 20829152840109128; Item 0 178 0 20829152840109128; Item 0 181 0 1125899906842624; Item 0 182 0 1125899906842624; Item 0 183 0 1125899906842624; Item 0 203 0 1688849860263936; Item 0 204 0 1688849860263936; Item 0 205 0 1688849860263936; Item 0 213 0 72; Item 0 222 0 20829152907099208; Item 0 225 0 72; Item 0 226 0 72; Item 0 227 0 1688849860263936; Item 0 228 0 1688849860263936; Item 0 229 0 72; Item 0 230 0 20829152840109128; Item 0 244 0 20829152840109128; Item 0 257 0 20829152840109128; Item 0 259 0 20829152840109128; Item 0 260 0 144115188075855872];
   [Item 0 207 0 288230376151713794; Item 0 208 0 288230376151713794; Item 0 209 0 288230376151713794; Item 0 210 0 2050; Item 0 211 0 2050; Item 0 267 1 2050];
   [Item 0 197 2 2048; Item 0 198 0 2048; Item 0 199 0 2048; Item 0 200 0 2048; Item 0 263 0 536870912];
   [Item 0 207 0 360287970189639681; Item 0 208 0 360287970189639681; Item 0 209 0 360287970189639681; Item 0 210 0 72057594037927937; Item 0 211 0 72057594037927937; Item 0 261 1 72057594037927937];
   [Item 0 189 1 1; Item 0 262 0 6];
   [Item 0 184 2 5; Item 0 218 0 5];
   [Item 0 44 0 422212465065984; Item 0 45 1 422212465065984; Item 0 47 1 281474976710656; Item 0 224 0 20829152840109128];
   [Item 0 43 4 69242784409583616; Item 0 223 0 69242784409583616];
   [Item 0 34 0 422212465065984; Item 0 35 0 422212465065984; Item 0 36 0 422212465065984; Item 0 37 0 422212465065984; Item 0 43 0 422212465065984; Item 0 44 1 422212465065984; Item 0 61 0 422212465065984; Item 0 62 0 422212465065984; Item 0 63 0 422212465065984; Item 0 64 0 422212465065984; Item 0 65 0 422212465065984; Item 0 66 0 422212465065984; Item 0 67 0 422212465065984; Item 0 68 0 422212465065984; Item 0 69 0 422212465065984; Item 0 70 0 422212465065984; Item 0 71 0 422212465065984; Item 0 72 0 422212465065984; Item 0 73 0 422212465065984; Item 0 74 0 422212465065984; Item 0 75 0 422212465065984; Item 0 76 0 422212465065984; Item 0 77 0 422212465065984; Item 0 78 0 422212465065984; Item 0 79 0 422212465065984; Item 0 85 0 422212465065984; Item 0 91 0 422212465065984; Item 0 92 0 422212465065984; Item 0 93 0 422212465065984; Item 0 94 0 422212465065984; Item 0 100 0 422212465065984; Item 0 106 0 422212465065984; Item 0 107 0 422212465065984; Item 0 111 0 422212465065984; Item 0 115 0 422212465065984; Item 0 121 0 422212465065984; Item 0 122 0 422212465065984; Item 0 127 0 422212465065984; Item 0 176 0 20829152840109128; Item 0 177 0 20829152840109128; Item 0 178 0 20829152840109128; Item 0 181 0 422212465065984; Item 0 182 0 422212465065984; Item 0 183 0 422212465065984; Item 0 203 0 985162418487296; Item 0 204 0 985162418487296; Item 0 205 0 985162418487296; Item 0 213 0 72; Item 0 222 0 20829152907099208; Item 0 225 0 72; Item 0 226 0 72; Item 0 227 0 985162418487296; Item 0 228 0 985162418487296; Item 0 229 0 72; Item 0 230 0 20829152840109128; Item 0 244 0 20829152840109128; Item 0 257 0 20829152840109128; Item 0 259 0 20829152840109128; Item 0 260 0 144115188075855872];
   [Item 0 207 0 357473160561295360; Item 0 208 0 357473160561295360; Item 0 209 0 357473160561295360; Item 0 210 0 69242784409583616; Item 0 211 0 69242784409583616; Item 0 258 1 69242784409583616];
   [Item 0 207 0 357473160561295360; Item 0 208 0 357473160561295360; Item 0 209 0 357473160561295360; Item 0 210 0 69242784409583616; Item 0 211 0 69242784409583616; Item 0 256 1 69242784409583616];
   [Item 0 35 4 69242784409583616; Item 0 223 0 69242784409583616];
   [Item 0 92 4 69242784409583616; Item 0 223 0 69242784409583616];
   [Item 0 94 4 69242784409583616; Item 0 95 0 422212465065984; Item 0 96 0 422212465065984; Item 0 97 0 422212465065984; Item 0 98 0 281474976710656; Item 0 99 0 281474976710656; Item 0 224 0 20829152840109128];
   [Item 0 100 4 69242784409583616; Item 0 101 0 422212465065984; Item 0 102 0 422212465065984; Item 0 103 0 422212465065984; Item 0 104 0 281474976710656; Item 0 105 0 281474976710656; Item 0 224 0 20829152840109128];
   [Item 0 111 4 69242784409583616; Item 0 112 0 422212465065984; Item 0 113 0 422212465065984; Item 0 114 0 422212465065984; Item 0 224 0 20829152840109128];
   [Item 0 115 4 69242784409583616; Item 0 116 0 422212465065984; Item 0 117 0 422212465065984; Item 0 118 0 422212465065984; Item 0 119 0 281474976710656; Item 0 120 0 281474976710656; Item 0 224 0 20829152840109128];
   [Item 0 123 1 140737488355328; Item 0 139 1 140737488355328; Item 0 140 0 140737521909760; Item 0 141 0 140737521909760; Item 0 142 0 140737521909760; Item 0 143 1 140737488355328; Item 0 144 0 140737505132544; Item 0 145 0 140737505132544; Item 0 146 0 140737505132544; Item 0 147 1 140737488355328; Item 0 148 0 140737496743936; Item 0 149 0 140737496743936; Item 0 150 0 140737496743936; Item 0 151 1 140737488355328; Item 0 152 0 140737492549632; Item 0 153 0 140737492549632; Item 0 154 0 140737492549632; Item 0 155 1 140737488355328; Item 0 156 0 140737490452480; Item 0 157 0 140737490452480; Item 0 158 0 140737490452480; Item 0 159 1 140737488355328; Item 0 160 0 140737489403904; Item 0 161 0 140737489403904; Item 0 162 0 140737489403904; Item 0 163 1 140737488355328; Item 0 164 0 140737488879616; Item 0 165 0 140737488879616; Item 0 166 0 140737488879616; Item 0 247 0 20829152840109128; Item 0 248 0 20829152840109128; Item 0 249 0 20829152840109128; Item 0 250 0 20829152840109128; Item 0 251 0 20829152840109128; Item 0 252 0 20829152840109128; Item 0 253 0 20829152840109128];
   [Item 0 122 4 69242784409583616; Item 0 224 0 20829152840109128];
   [Item 0 130 1 281474976710656; Item 0 139 1 281474976710656; Item 0 140 0 281475010265088; Item 0 141 0 281475010265088; Item 0 142 0 281475010265088; Item 0 143 1 281474976710656; Item 0 144 0 281474993487872; Item 0 145 0 281474993487872; Item 0 146 0 281474993487872; Item 0 147 1 281474976710656; Item 0 148 0 281474985099264; Item 0 149 0 281474985099264; Item 0 150 0 281474985099264; Item 0 151 1 281474976710656; Item 0 152 0 281474980904960; Item 0 153 0 281474980904960; Item 0 154 0 281474980904960; Item 0 155 1 281474976710656; Item 0 156 0 281474978807808; Item 0 157 0 281474978807808; Item 0 158 0 281474978807808; Item 0 159 1 281474976710656; Item 0 160 0 281474977759232; Item 0 161 0 281474977759232; Item 0 162 0 281474977759232; Item 0 163 1 281474976710656; Item 0 164 0 281474977234944; Item 0 165 0 281474977234944; Item 0 166 0 281474977234944; Item 0 247 0 20829152840109128; Item 0 248 0 20829152840109128; Item 0 249 0 20829152840109128; Item 0 250 0 20829152840109128; Item 0 251 0 20829152840109128; Item 0 252 0 20829152840109128; Item 0 253 0 20829152840109128];
   [Item 0 127 4 69242784409583616; Item 0 223 0 69242784409583616];
   [Item 0 34 4 69242784409583616; Item 0 231 0 69242784409583616];
   [Item 0 198 1 2048; Item 0 268 0 2048];
   [Item 0 207 0 288230376151711750; Item 0 208 0 288230376151711750; Item 0 209 0 288230376151711750; Item 0 210 0 6; Item 0 211 0 6; Item 0 262 1 6];
   [Item 0 189 2 1; Item 0 190 0 4; Item 0 194 0 4; Item 0 195 0 4; Item 0 263 0 34359738368];
   [Item 0 207 0 288230376151711749; Item 0 208 0 288230376151711749; Item 0 209 0 288230376151711749; Item 0 210 0 5; Item 0 211 0 5; Item 0 218 1 5];
   [Item 0 95 0 422212465065984; Item 0 96 1 422212465065984; Item 0 98 1 281474976710656; Item 0 224 0 20829152840109128];
   [Item 0 94 5 69242784409583616; Item 0 223 0 69242784409583616];
   [Item 0 34 0 422212465065984; Item 0 35 0 422212465065984; Item 0 36 0 422212465065984; Item 0 37 0 422212465065984; Item 0 43 0 422212465065984; Item 0 61 0 422212465065984; Item 0 62 0 422212465065984; Item 0 63 0 422212465065984; Item 0 64 0 422212465065984; Item 0 65 0 422212465065984; Item 0 66 0 422212465065984; Item 0 67 0 422212465065984; Item 0 68 0 422212465065984; Item 0 69 0 422212465065984; Item 0 70 0 422212465065984; Item 0 71 0 422212465065984; Item 0 72 0 422212465065984; Item 0 73 0 422212465065984; Item 0 74 0 422212465065984; Item 0 75 0 422212465065984; Item 0 76 0 422212465065984; Item 0 77 0 422212465065984; Item 0 78 0 422212465065984; Item 0 79 0 422212465065984; Item 0 85 0 422212465065984; Item 0 91 0 422212465065984; Item 0 92 0 422212465065984; Item 0 93 0 422212465065984; Item 0 94 0 422212465065984; Item 0 95 1 422212465065984; Item 0 100 0 422212465065984; Item 0 106 0 422212465065984; Item 0 107 0 422212465065984; Item 0 111 0 422212465065984; Item 0 115 0 422212465065984; Item 0 121 0 422212465065984; Item 0 122 0 422212465065984; Item 0 127 0 422212465065984; Item 0 176 0 20829152840109128; Item 0 177 0 20829152840109128; Item 0 178 0 20829152840109128; Item 0 181 0 422212465065984; Item 0 182 0 422212465065984; Item 0 183 0 422212465065984; Item 0 203 0 985162418487296; Item 0 204 0 985162418487296; Item 0 205 0 985162418487296; Item 0 213 0 72; Item 0 222 0 20829152907099208; Item 0 225 0 72; Item 0 226 0 72; Item 0 227 0 985162418487296; Item 0 228 0 985162418487296; Item 0 229 0 72; Item 0 230 0 20829152840109128; Item 0 244 0 20829152840109128; Item 0 257 0 20829152840109128; Item 0 259 0 20829152840109128; Item 0 260 0 144115188075855872];
   [Item 0 101 0 422212465065984; Item 0 102 1 422212465065984; Item 0 104 1 281474976710656; Item 0 224 0 20829152840109128];
   [Item 0 100 5 69242784409583616; Item 0 223 0 69242784409583616];
   [Item 0 34 0 422212465065984; Item 0 35 0 422212465065984; Item 0 36 0 422212465065984; Item 0 37 0 422212465065984; Item 0 43 0 422212465065984; Item 0 61 0 422212465065984; Item 0 62 0 422212465065984; Item 0 63 0 422212465065984; Item 0 64 0 422212465065984; Item 0 65 0 422212465065984; Item 0 66 0 422212465065984; Item 0 67 0 422212465065984; Item 0 68 0 422212465065984; Item 0 69 0 422212465065984; Item 0 70 0 422212465065984; Item 0 71 0 422212465065984; Item 0 72 0 422212465065984; Item 0 73 0 422212465065984; Item 0 74 0 422212465065984; Item 0 75 0 422212465065984; Item 0 76 0 422212465065984; Item 0 77 0 422212465065984; Item 0 78 0 422212465065984; Item 0 79 0 422212465065984; Item 0 85 0 422212465065984; Item 0 91 0 422212465065984; Item 0 92 0 422212465065984; Item 0 93 0 422212465065984; Item 0 94 0 422212465065984; Item 0 100 0 422212465065984; Item 0 101 1 422212465065984; Item 0 106 0 422212465065984; Item 0 107 0 422212465065984; Item 0 111 0 422212465065984; Item 0 115 0 422212465065984; Item 0 121 0 422212465065984; Item 0 122 0 422212465065984; Item 0 127 0 422212465065984; Item 0 176 0 20829152840109128; Item 0 177 0 20829152840109128; Item 0 178 0 20829152840109128; Item 0 181 0 422212465065984; Item 0 182 0 422212465065984; Item 0 183 0 422212465065984; Item 0 203 0 985162418487296; Item 0 204 0 985162418487296; Item 0 205 0 985162418487296; Item 0 213 0 72; Item 0 222 0 20829152907099208; Item 0 225 0 72; Item 0 226 0 72; Item 0 227 0 985162418487296; Item 0 228 0 985162418487296; Item 0 229 0 72; Item 0 230 0 20829152840109128; Item 0 244 0 20829152840109128; Item 0 257 0 20829152840109128; Item 0 259 0 20829152840109128; Item 0 260 0 144115188075855872];
   [Item 0 111 5 69242784409583616; Item 0 112 0 422212465065984; Item 0 113 1 422212465065984; Item 0 223 0 69242784409583616; Item 0 224 0 20829152840109128];
   [Item 0 34 0 422212465065984; Item 0 35 0 422212465065984; Item 0 36 0 422212465065984; Item 0 37 0 422212465065984; Item 0 43 0 422212465065984; Item 0 61 0 422212465065984; Item 0 62 0 422212465065984; Item 0 63 0 422212465065984; Item 0 64 0 422212465065984; Item 0 65 0 422212465065984; Item 0 66 0 422212465065984; Item 0 67 0 422212465065984; Item 0 68 0 422212465065984; Item 0 69 0 422212465065984; Item 0 70 0 422212465065984; Item 0 71 0 422212465065984; Item 0 72 0 422212465065984; Item 0 73 0 422212465065984; Item 0 74 0 422212465065984; Item 0 75 0 422212465065984; Item 0 76 0 422212465065984; Item 0 77 0 422212465065984; Item 0 78 0 422212465065984; Item 0 79 0 422212465065984; Item 0 85 0 422212465065984; Item 0 91 0 422212465065984; Item 0 92 0 422212465065984; Item 0 93 0 422212465065984; Item 0 94 0 422212465065984; Item 0 100 0 422212465065984; Item 0 106 0 422212465065984; Item 0 107 0 422212465065984; Item 0 111 0 422212465065984; Item 0 112 1 422212465065984; Item 0 115 0 422212465065984; Item 0 121 0 422212465065984; Item 0 122 0 422212465065984; Item 0 127 0 422212465065984; Item 0 176 0 20829152840109128; Item 0 177 0 20829152840109128; Item 0 178 0 20829152840109128; Item 0 181 0 422212465065984; Item 0 182 0 422212465065984; Item 0 183 0 422212465065984; Item 0 203 0 985162418487296; Item 0 204 0 985162418487296; Item 0 205 0 985162418487296; Item 0 213 0 72; Item 0 222 0 20829152907099208; Item 0 225 0 72; Item 0 226 0 72; Item 0 227 0 985162418487296; Item 0 228 0 985162418487296; Item 0 229 0 72; Item 0 230 0 20829152840109128; Item 0 244 0 20829152840109128; Item 0 257 0 20829152840109128; Item 0 259 0 20829152840109128; Item 0 260 0 144115188075855872];
   [Item 0 116 0 422212465065984; Item 0 117 1 422212465065984; Item 0 119 1 281474976710656; Item 0 224 0 20829152840109128];
   [Item 0 115 5 69242784409583616; Item 0 223 0 69242784409583616];
   [Item 0 34 0 422212465065984; Item 0 35 0 422212465065984; Item 0 36 0 422212465065984; Item 0 37 0 422212465065984; Item 0 43 0 422212465065984; Item 0 61 0 422212465065984; Item 0 62 0 422212465065984; Item 0 63 0 422212465065984; Item 0 64 0 422212465065984; Item 0 65 0 422212465065984; Item 0 66 0 422212465065984; Item 0 67 0 422212465065984; Item 0 68 0 422212465065984; Item 0 69 0 422212465065984; Item 0 70 0 422212465065984; Item 0 71 0 422212465065984; Item 0 72 0 422212465065984; Item 0 73 0 422212465065984; Item 0 74 0 422212465065984; Item 0 75 0 422212465065984; Item 0 76 0 422212465065984; Item 0 77 0 422212465065984; Item 0 78 0 422212465065984; Item 0 79 0 422212465065984; Item 0 85 0 422212465065984; Item 0 91 0 422212465065984; Item 0 92 0 422212465065984; Item 0 93 0 422212465065984; Item 0 94 0 422212465065984; Item 0 100 0 422212465065984; Item 0 106 0 422212465065984; Item 0 107 0 422212465065984; Item 0 111 0 422212465065984; Item 0 115 0 422212465065984; Item 0 116 1 422212465065984; Item 0 121 0 422212465065984; Item 0 122 0 422212465065984; Item 0 127 0 422212465065984; Item 0 176 0 20829152840109128; Item 0 177 0 20829152840109128; Item 0 178 0 20829152840109128; Item 0 181 0 422212465065984; Item 0 182 0 422212465065984; Item 0 183 0 422212465065984; Item 0 203 0 985162418487296; Item 0 204 0 985162418487296; Item 0 205 0 985162418487296; Item 0 213 0 72; Item 0 222 0 20829152907099208; Item 0 225 0 72; Item 0 226 0 72; Item 0 227 0 985162418487296; Item 0 228 0 985162418487296; Item 0 229 0 72; Item 0 230 0 20829152840109128; Item 0 244 0 20829152840109128; Item 0 257 0 20829152840109128; Item 0 259 0 20829152840109128; Item 0 260 0 144115188075855872];
   [Item 0 34 0 281475043295232; Item 0 35 0 281475043295232; Item 0 36 0 281475043295232; Item 0 37 0 281475043295232; Item 0 43 0 281475043295232; Item 0 61 0 281475043295232; Item 0 62 0 281475043295232; Item 0 63 0 281475043295232; Item 0 64 0 281475043295232; Item 0 65 0 281475043295232; Item 0 66 0 281475043295232; Item 0 67 0 281475043295232; Item 0 68 0 281475043295232; Item 0 69 0 281475043295232; Item 0 70 0 281475043295232; Item 0 71 0 281475043295232; Item 0 72 0 281475043295232; Item 0 73 0 281475043295232; Item 0 74 0 281475043295232; Item 0 75 0 281475043295232; Item 0 76 0 281475043295232; Item 0 77 0 281475043295232; Item 0 78 0 281475043295232; Item 0 79 0 281475043295232; Item 0 85 0 281475043295232; Item 0 91 0 281475043295232; Item 0 92 0 281475043295232; Item 0 93 0 281475043295232; Item 0 94 0 281475043295232; Item 0 100 0 281475043295232; Item 0 106 0 281475043295232; Item 0 107 0 281475043295232; Item 0 111 0 281475043295232; Item 0 115 0 281475043295232; Item 0 121 0 281475043295232; Item 0 122 0 281475043295232; Item 0 122 5 69242784409583616; Item 0 125 0 281474976710656; Item 0 126 0 281474976710656; Item 0 127 0 281475043295232; Item 0 132 0 281474976710656; Item 0 133 0 281474976710656; Item 0 134 0 281474976710656; Item 0 135 0 281474976710656; Item 0 136 0 281474976710656; Item 0 137 0 281474976710656; Item 0 138 0 281474976710656; Item 0 139 0 281474976710656; Item 0 143 0 281474976710656; Item 0 147 0 281474976710656; Item 0 151 0 281474976710656; Item 0 155 0 281474976710656; Item 0 159 0 281474976710656; Item 0 163 0 281474976710656; Item 0 176 0 20829152840109128; Item 0 177 0 20829152840109128; Item 0 178 0 20829152840109128; Item 0 181 0 281475043295232; Item 0 182 0 281475043295232; Item 0 183 0 281475043295232; Item 0 203 0 844424996716544; Item 0 204 0 844424996716544; Item 0 205 0 844424996716544; Item 0 213 0 72; Item 0 222 0 20829152907099208; Item 0 225 0 72; Item 0 226 0 72; Item 0 227 0 844424996716544; Item 0 228 0 844424996716544; Item 0 229 0 72; Item 0 230 0 20829152840109128; Item 0 244 0 20829152840109128; Item 0 257 0 20829152840109128; Item 0 259 0 20829152840109128; Item 0 260 0 144115188075855872];
   [Item 0 207 0 357473160561295360; Item 0 208 0 357473160561295360; Item 0 209 0 357473160561295360; Item 0 210 0 69242784409583616; Item 0 211 0 69242784409583616; Item 0 231 1 69242784409583616];
   [Item 0 207 0 288230376151713792; Item 0 208 0 288230376151713792; Item 0 209 0 288230376151713792; Item 0 210 0 2048; Item 0 211 0 2048; Item 0 268 1 2048];
   [Item 0 189 3 1; Item 0 261 0 1];
   [Item 0 190 1 4; Item 0 264 0 6];
   [Item 0 125 1 281474976710656; Item 0 139 1 281474976710656; Item 0 140 0 281475010265088; Item 0 141 0 281475010265088; Item 0 142 0 281475010265088; Item 0 143 1 281474976710656; Item 0 144 0 281474993487872; Item 0 145 0 281474993487872; Item 0 146 0 281474993487872; Item 0 147 1 281474976710656; Item 0 148 0 281474985099264; Item 0 149 0 281474985099264; Item 0 150 0 281474985099264; Item 0 151 1 281474976710656; Item 0 152 0 281474980904960; Item 0 153 0 281474980904960; Item 0 154 0 281474980904960; Item 0 155 1 281474976710656; Item 0 156 0 281474978807808; Item 0 157 0 281474978807808; Item 0 158 0 281474978807808; Item 0 159 1 281474976710656; Item 0 160 0 281474977759232; Item 0 161 0 281474977759232; Item 0 162 0 281474977759232; Item 0 163 1 281474976710656; Item 0 164 0 281474977234944; Item 0 165 0 281474977234944; Item 0 166 0 281474977234944; Item 0 247 0 20829152840109128; Item 0 248 0 20829152840109128; Item 0 249 0 20829152840109128; Item 0 250 0 20829152840109128; Item 0 251 0 20829152840109128; Item 0 252 0 20829152840109128; Item 0 253 0 20829152840109128];
   [Item 0 122 6 69242784409583616; Item 0 223 0 69242784409583616];
   [Item 0 207 0 288230376151711750; Item 0 208 0 288230376151711750; Item 0 209 0 288230376151711750; Item 0 210 0 6; Item 0 211 0 6; Item 0 264 1 6];
   [Item 0 190 2 4; Item 0 191 0 4; Item 0 192 0 4; Item 0 193 0 4; Item 0 263 0 17179869184];
   [Item 0 191 1 4; Item 0 265 0 4];
   [Item 0 207 0 288230376151711748; Item 0 208 0 288230376151711748; Item 0 209 0 288230376151711748; Item 0 210 0 4; Item 0 211 0 4; Item 0 265 1 4]
  ].

(* The symbols that can stand for no terminals at all. *)
Definition empties : list Z :=
  [117; 122; 124; 126; 128; 157; 167; 171; 177; 181; 197; 201; 208; 211; 214; 217; 220; 223; 230].

(* For every symbol the terminals its texts may start with. *)
Definition starts : list Z :=
  [1; 2; 4; 8; 16; 32; 64; 128; 256; 512; 1024; 2048; 4096; 8192; 16384; 32768; 65536; 131072; 262144; 524288; 1048576; 2097152; 4194304; 8388608; 16777216; 33554432; 67108864; 134217728; 268435456; 536870912; 1073741824; 2147483648; 4294967296; 8589934592; 17179869184; 34359738368; 68719476736; 137438953472; 274877906944; 549755813888; 1099511627776; 2199023255552; 4398046511104; 8796093022208; 17592186044416; 35184372088832; 70368744177664; 140737488355328; 281474976710656; 562949953421312; 1125899906842624; 2251799813685248; 4503599627370496; 9007199254740992; 18014398509481984; 36028797018963968; 72057594037927936; 144115188075855872; 288230376151711744; 291045130482337864; 536870912; 1073741824; 2147483648; 17179869184; 34359738368; 2; 72057594037927936; 4; 268435456; 65536; 134217728; 32768; 67108864; 131072; 262144; 524288; 1048576; 2097152; 4194304; 8388608; 16777216; 33554432; 4096; 8192; 16384; 8589934592; 68719476736; 137438953472; 274877906944; 549755813888; 1099511627776; 2199023255552; 4398046511104; 8796093022208; 17592186044416; 35184372088832; 70368744177664; 1125899906842624; 2251799813685248; 4294967296; 8; 64; 1024; 2048; 140737488355328; 281474976710656; 562949953421312; 16; 32; 128; 256; 144115188075855872; 512; 4503599627370496; 9007199254740992; 18014398509481984; 36028797018963968; 288230376151711744; 288230376151711744; 288230376151711744; 2814754330626120; 72; 2; 2; 2; 2; 2; 2; 2; 2; 524288; 524288; 1048576; 1048576; 2097152; 2097152; 4194304; 4194304; 8388608; 8388608; 16777216; 16777216; 33554432; 33554432; 20829152840109128; 20829152840109128; 20829152840109128; 20829152840109128; 20829152840109128; 20829152840109128; 20829152840109128; 20829152840109128; 20829152840109128; 20829152840109128; 20829152840109128; 393216; 562949953421312; 140737488355328; 140737488355328; 140737488355328; 33554432; 140737488355328; 140737488355328; 33030144; 140737488355328; 140737488355328; 20829152840109128; 140737488355328; 140737488355328; 140737488355328; 4096; 140737488355328; 140737488355328; 140737488355328; 8192; 562949953437696; 16384; 140737488355328; 140737488355328; 140737488355328; 32768; 140737488355328; 140737488355328; 140737488355328; 65536; 98304; 32768; 65536; 562949953437696; 562949953421312; 562949953421312; 562949953421312; 562949953421312; 98304; 562949953536000; 268435456; 18014398509485056; 140737488355328; 140737488355328; 140737488355328; 72; 140737488355328; 140737488355328; 140737488355328; 4294967296; 2814749767106560; 140677358813184; 20829152840109128; 688; 688; 2814754330624072; 4; 4; 4; 688; 688; 2814754330624072; 688; 688; 2814754330624072; 4; 4; 4; 688; 688; 688; 2814754330624072; 2814749767106632; 2814754330624072; 2814754330624072; 2048; 2048; 2048; 2814754330626120].

(* For every symbol the terminals its texts may end with. *)
Definition ends : list Z :=
  [1; 2; 4; 8; 16; 32; 64; 128; 256; 512; 1024; 2048; 4096; 8192; 16384; 32768; 65536; 131072; 262144; 524288; 1048576; 2097152; 4194304; 8388608; 16777216; 33554432; 67108864; 134217728; 268435456; 536870912; 1073741824; 2147483648; 4294967296; 8589934592; 17179869184; 34359738368; 68719476736; 137438953472; 274877906944; 549755813888; 1099511627776; 2199023255552; 4398046511104; 8796093022208; 17592186044416; 35184372088832; 70368744177664; 140737488355328; 281474976710656; 562949953421312; 1125899906842624; 2251799813685248; 4503599627370496; 9007199254740992; 18014398509481984; 36028797018963968; 72057594037927936; 144115188075855872; 288230376151711744; 1; 288230376688582656; 288230377225453568; 288230378299195392; 288230393331580928; 288230410511450112; 288230376151711746; 360287970189639680; 288230376151711748; 288230376420147200; 288230376151777280; 288230376285929472; 288230376151744512; 288230376218820608; 288230376151842816; 288230376151973888; 288230376152236032; 288230376152760320; 288230376153808896; 288230376155906048; 288230376160100352; 288230376168488960; 288230376185266176; 288230376151715840; 288230376151719936; 288230376151728128; 288230384741646336; 288230444871188480; 288230513590665216; 288230651029618688; 288230925907525632; 288231475663339520; 288232575174967296; 288234774198222848; 288239172244733952; 288247968337756160; 288265560523800576; 288300744895889408; 289356276058554368; 290482175965396992; 288230380446679040; 288230376151711752; 288230376151711808; 288230376151712768; 288230376151713792; 288371113640067072; 288511851128422400; 288793326105133056; 288230376151711760; 288230376151711776; 288230376151711872; 288230376151712000; 432345564227567616; 288230376151712256; 292733975779082240; 297237575406452736; 306244774661193728; 324259173170675712; 288230376151711744; 288230376151711744; 288230376151711744; 1; 288230376151711816; 288230377762324480; 288230377762324480; 288230376688582656; 288230376688582656; 288230427691319296; 288230427691319296; 288230393331580928; 288230393331580928; 433752939312447560; 433752939312447560; 433752939312447560; 433752939312447560; 433752939312447560; 433752939312447560; 433752939312447560; 433752939312447560; 433752939312447560; 433752939312447560; 433752939312447560; 433752939312447560; 433752939312447560; 433752939312447560; 433752939312447560; 433752939312447560; 433752939312447560; 433752939312447560; 433752939312447560; 433752939312447560; 433752939312447560; 433752939312447560; 433752939312447560; 433752939312447560; 433752939312447560; 288230376152104960; 288511851128422400; 433752939312447560; 433752939312447560; 433752939312447560; 288230376185266176; 433752939312447560; 433752939312447560; 288230376184741888; 433752939312447560; 433752939312447560; 433752939312447560; 433752939312447560; 433752939312447560; 433752939312447560; 288230376151715840; 433752939312447560; 433752939312447560; 433752939312447560; 288230376151719936; 433752939312447560; 288230376151728128; 433752939312447560; 433752939312447560; 433752939312447560; 288230376151744512; 433752939312447560; 433752939312447560; 433752939312447560; 288230376151777280; 288230376353038336; 288230376218820608; 288230376285929472; 433752939312447560; 288511851128422400; 288511851128422400; 288511851128422400; 288511851128422400; 288230376353038336; 433752939312447560; 432345564227567616; 288230376151711816; 433752939312447560; 433752939312447560; 433752939312447560; 288230376151711816; 433752939312447560; 433752939312447560; 433752939312447560; 288230376151711816; 289637751035265024; 288371053510524928; 433752939312447560; 288230376151712176; 288230376151712176; 433752939312447560; 288230376151711748; 288230376151711748; 288230376151711748; 288230376151712176; 288230376151712176; 433752939312447560; 288230376151712176; 288230376151712176; 433752939312447560; 288230376151711748; 288230376151711748; 288230376151711748; 288230376151712176; 288230376151712176; 288230376151712176; 433752939312447560; 289637751035265024; 433752939312447560; 355784370562269620; 288230376151713792; 288230376151713792; 288230376151713792; 355784370562269620].

(* For every terminal the terminals that may come next. *)
Definition neighbours : list Z :=
  [0; 288230429301932032; 360287970189639681; 358036110514716672; 288230376151711749; 288230376151711749; 358036110514716672; 288230376151711749; 288230376151711749; 432345564227567616; 288230376151711816; 291045132629819464; 288371113640067072; 288371113640067072; 309200266480176200; 309059528991820872; 309059528991820872; 309200266480176200; 309200266480176200; 309200266480176200; 309200266480176200; 309200266480176200; 309200266480176200; 309200266480176200; 309200266480176200; 309200266480176200; 357473160561295360; 357473160561295360; 432345564227567616; 288230376151713792; 288230376151713794; 288230376151713794; 288230376151711816; 309059528991820872; 288230376151711748; 288230376151711750; 309059528991820872; 309059528991820872; 309059528991820872; 309059528991820872; 309059528991820872; 309059528991820872; 309059528991820872; 309059528991820872; 309059528991820872; 309059528991820872; 309059528991820872; 309059528991820872; 357473160561295360; 309059529058810952; 357473160561295360; 309059528991820872; 288230376151712433; 288230376151712437; 288230376151712505; 288230376151712437; 288230376151711750; 357473160561295616; 576460752303423487].
