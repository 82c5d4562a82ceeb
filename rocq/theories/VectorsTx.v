(* The model run on the transactions of /repo/test/testTransaction.cpp.  The second transaction of TestTransaction2
   spends the first one, so its signature, made by other software, checks the hash that is signed, the reader of
   signatures and the interpreter together. *)
From Coq Require Import String.
From Verif Require Import Base WireModel TextModel SecpModel ScriptModel StackModel MachineModel PatternModel SighashModel
  ExtModel RedeemModel DerModel Sha1Spec Sha256Spec Ripemd160Spec CurveSpec.
Local Open Scope N_scope.

Definition unhex (s : string) : bytes := match hex_read (text s) with Some b => b | None => [] end.
Definition vx_first : bytes := unhex
  ("0100000001cd4e4cac3c7b56920d1e7655e7e260d31f29d9a388d04910f1bbd72304a79029010000006b483045022100" ++
   "e75279a205a547c445719420aa3138bf14743e3f42618e5f86a19bde14bb95f7022064777d34776b05d816daf1699493" ++
   "fcdf2ef5a5ab1ad710d9c97bfb5b8f7cef3641210263e2dee22b1ddc5e11f6fab8bcd2378bdd19580d640501ea956ec0" ++
   "e786f93e76ffffffff013e660000000000001976a9146bfd5c7fbe21529d45803dbcf0c87dd3c71efbc288ac00000000")%string.
Definition vx_second : bytes := unhex
  ("0100000001ac4e164f5bc16746bb0868404292ac8318bbac3800e4aad13a014da427adce3e000000006a47304402203a" ++
   "61a2e931612b4bda08d541cfb980885173b8dcf64a3471238ae7abcd368d6402204cbf24f04b9aa2256d8901f0ed9786" ++
   "6603d2be8324c2bfb7a37bf8fc90edd5b441210263e2dee22b1ddc5e11f6fab8bcd2378bdd19580d640501ea956ec0e7" ++
   "86f93e76ffffffff013c660000000000001976a9146bfd5c7fbe21529d45803dbcf0c87dd3c71efbc288ac00000000")%string.
Definition vx_long : bytes := unhex
  ("0100000001DB78AC273A4113615B5FC2D5BC24904884988201A7DB977FEEE56F73F5BF718CB00000006A473044022029" ++
   "5348C95DBAA2E0CF67F2EDA2A442AFF7D6D8DCA2765D0D5CD11D8D3F0B75800220711DA79E4BE13BDD54DBCD3C5CFAD5" ++
   "F4C9E4F709BDF6B93DB8E94E464BFAE8EC412102A97974AC47721DF4B4D34DAAF277E015B29D377A90E546C442F9A32E" ++
   "4438CF61FFFFFFFF6E0000000000000000FDDA0E006A0A22686D7779646122202D20686F77206D75636820776F756C64" ++
   "20796F7520646F6E61746520616E6F6E796D6F75736C790A0A686F7720746F20637265617465206F776E65726C657373" ++
   "204254432F4243482F42535620616464726573732077697468207370656369616C206D65616E696E670A0A616D6E6573" ++
   "696140616D6E657369613A7E240A616D6E6573696140616D6E657369613A7E242077676574202D2D7175696574206874" ++
   "7470733A2F2F6769746875622E636F6D2F6C6962626974636F696E2F6C6962626974636F696E2D6578706C6F7265722F" ++
   "72656C65617365732F646F776E6C6F61642F76332E322E302F62782D6C696E75782D7836342D7172636F64650A616D6E" ++
   "6573696140616D6E657369613A7E242077676574202D2D71756965742068747470733A2F2F6769746875622E636F6D2F" ++
   "736970612F6265636833322F7261772F6D61737465722F7265662F707974686F6E2F7365677769745F616464722E7079" ++
   "0A616D6E6573696140616D6E657369613A7E242077676574202D2D71756965742068747470733A2F2F6769746875622E" ++
   "636F6D2F6F736B796B2F63617368616464726573732F617263686976652F312E302E352E7461722E677A0A616D6E6573" ++
   "696140616D6E657369613A7E24206C73202D6C2062782D6C696E75782D7836342D7172636F6465207365677769745F61" ++
   "6464722E707920312E302E352E7461722E677A0A2D72772D722D2D722D2D203120616D6E6573696120616D6E65736961" ++
   "2020202036343934204175672031322031343A313420312E302E352E7461722E677A0A2D72772D722D2D722D2D203120" ++
   "616D6E6573696120616D6E657369612035303337373638204D61792032362020323031372062782D6C696E75782D7836" ++
   "342D7172636F64650A2D72772D722D2D722D2D203120616D6E6573696120616D6E657369612020202034333736204175" ++
   "672031322031343A3133207365677769745F616464722E70790A616D6E6573696140616D6E657369613A7E2420746172" ++
   "20786620312E302E352E7461722E677A0A616D6E6573696140616D6E657369613A7E242063686D6F64202B782062782D" ++
   "6C696E75782D7836342D7172636F64650A616D6E6573696140616D6E657369613A7E2420616C6961732062783D2F686F" ++
   "6D652F616D6E657369612F62782D6C696E75782D7836342D7172636F64650A616D6E6573696140616D6E657369613A7E" ++
   "240A0A31292042617365353820616464726573732069732076616C696420666F7220616C6C204254432F4243482F4253" ++
   "560A0A312E31292062617365353820616464726573732066726F6D20746578740A616D6E6573696140616D6E65736961" ++
   "3A7E240A616D6E6573696140616D6E657369613A7E24206278206261736531362D656E636F6465202273656E64203125" ++
   "206F6620686F77206D75636820796F75276420646F6E61746520666F72207075626C697368696E6720696E20626C6F63" ++
   "6B636861696E20646979206D616E75616C20666F72206275696C64696E6720736D61727420726F636B657422207C2062" ++
   "7820726970656D64313630207C20627820616464726573732D656E636F64650A314A596D6871733438313252354D6537" ++
   "6648554E6F386466637A5A776A79384832640A616D6E6573696140616D6E657369613A7E240A0A312E32292062617365" ++
   "35382061646472657373207769746820746578740A62617365353820616C706861626574203D20646967697473206578" ++
   "636C7564696E6720223022202B206C6F77657263617365206C657474657273206578636C7564696E6720226C22202B20" ++
   "757070657263617365206C657474657273206578636C7564696E67202249222C20224F220A737472696E67206F662033" ++
   "33206C6574746572732C207374617274732077697468202231222C206C6173742036206F7220372077696C6C20626520" ++
   "6368616E6765642C203235206F722032362072656D61696E20666F7220746578740A616D6E6573696140616D6E657369" ++
   "613A7E240A616D6E6573696140616D6E657369613A7E24206278206261736535382D6465636F646520315072636E7448" ++
   "6D77796461466F724B694C4C42616447757978787878787878780A303030343532393163353663336466306661613764" ++
   "35303864313736363037363631383762613432336631343866663731310A616D6E6573696140616D6E657369613A7E24" ++
   "0A72656D6F7665203220666972737420616E642038206C61737420616E640A616D6E6573696140616D6E657369613A7E" ++
   "240A616D6E6573696140616D6E657369613A7E2420627820616464726573732D656E636F646520303435323931633536" ++
   "633364663066616137643530386431373636303736363138376261343233660A315072636E74486D77796461466F724B" ++
   "694C4C4261644775797878797336554C790A616D6E6573696140616D6E657369613A7E240A0A32292042544320536567" ++
   "57697420616464726573732028626563683332290A0A322E31292073656777697420616464726573732066726F6D2074" ++
   "6578740A616D6E6573696140616D6E657369613A7E240A616D6E6573696140616D6E657369613A7E2420627820626173" ++
   "6531362D656E636F64652027302E30303120686D7779646120666F72207075626C697368696E67207072697661746520" ++
   "696E666F726D6174696F6E2061626F7574206261642067757927207C20627820726970656D643136300A663762613961" ++
   "646130366338333435363065343339636662336235633035346462313332393134640A616D6E6573696140616D6E6573" ++
   "69613A7E240A616D6E6573696140616D6E657369613A7E2420707974686F6E330A3E3E3E0A3E3E3E2066726F6D207365" ++
   "677769745F6164647220696D706F727420656E636F64650A3E3E3E0A3E3E3E207072696E7428656E636F646528276263" ++
   "272C20302C206279746561727261792E66726F6D68657828276637626139616461303663383334353630653433396366" ++
   "6233623563303534646231333239313464272929290A6263317137376166346B73786571363976726A726E6E616E6B68" ++
   "7139666B636E3979326437683071337A0A3E3E3E0A0A322E322920736567776974206164647265737320776974682074" ++
   "6578740A62656368333220616C706861626574203D20646967697473206578636C7564696E6720223122202B206C6F77" ++
   "657263617365206C657474657273206578636C7564696E67202262222C202269222C20226F220A737472696E67206F66" ++
   "203332206F72203531206C6574746572730A3E3E3E0A3E3E3E2066726F6D207365677769745F6164647220696D706F72" ++
   "7420434841525345542C20636F6E76657274626974732C20656E636F64650A3E3E3E0A3E3E3E206172726179203D205B" ++
   "434841525345542E66696E6428782920666F72207820696E20277065726D796C686D7779646173656E646472306E656D" ++
   "73677430366164677579275D0A3E3E3E207072696E7428656E636F646528276263272C20302C20636F6E766572746269" ++
   "74732861727261792C20352C20382929290A626331717065726D796C686D7779646173656E646472306E656D73677430" ++
   "36616467757972666632797A0A3E3E3E0A3E3E3E206172726179203D205B434841525345542E66696E6428782920666F" ++
   "72207820696E2027306E65706572636E74686D77796461663072643078796E677768307730726B7368656C7073707230" ++
   "7465637473366164677579275D0A3E3E3E207072696E7428656E636F646528276263272C20302C20636F6E7665727462" ++
   "6974732861727261792C20352C20382929290A62633171306E65706572636E74686D77796461663072643078796E6777" ++
   "68307730726B7368656C707370723074656374733661646775797163357873637A0A3E3E3E0A3E3E3E20657869742829" ++
   "0A616D6E6573696140616D6E657369613A7E240A0A332920424348206E6577206164647265737320666F726D61742028" ++
   "616C736F20626563683332290A0A332E31292042434820616464726573732066726F6D2074657874202D20636F6E7665" ++
   "72742066726F6D20312E310A616D6E6573696140616D6E657369613A7E240A616D6E6573696140616D6E657369613A7E" ++
   "242063642063617368616464726573732D312E302E352F0A616D6E6573696140616D6E657369613A7E2F636173686164" ++
   "64726573732D312E302E35240A616D6E6573696140616D6E657369613A7E2F63617368616464726573732D312E302E35" ++
   "2420707974686F6E330A3E3E3E0A3E3E3E2066726F6D2063617368616464726573732E636F6E7665727420696D706F72" ++
   "7420746F5F636173685F616464726573730A3E3E3E0A3E3E3E207072696E7428746F5F636173685F6164647265737328" ++
   "27314A596D6871733438313252354D65376648554E6F386466637A5A776A79384832642729290A626974636F696E6361" ++
   "73683A71727138636B646461367274686B7835786639616D3271637A6637617679666766676A6A3668653032340A3E3E" ++
   "3E0A0A332E3229204243482061646472657373207769746820746578740A62656368333220616C706861626574207365" ++
   "6520322E320A737472696E67206F66203334206C6574746572732C20737461727473207769746820227171222C20656E" ++
   "64732077697468202271222C2033312072656D61696E20666F7220746578740A3E3E3E0A3E3E3E2066726F6D20636173" ++
   "68616464726573732E63727970746F20696D706F7274206233326465636F64652C20623332656E636F64652C2063616C" ++
   "63756C6174655F636865636B73756D0A3E3E3E0A3E3E3E20707265666978203D2027626974636F696E63617368270A3E" ++
   "3E3E206172726179203D206233326465636F6465282771717065726D796C686D777964616630723675726E3661646775" ++
   "797368307573657127290A3E3E3E20636865636B73756D203D2063616C63756C6174655F636865636B73756D28707265" ++
   "6669782C206172726179290A3E3E3E207072696E7428707265666978202B20273A27202B20623332656E636F64652861" ++
   "72726179202B20636865636B73756D29290A626974636F696E636173683A71717065726D796C686D7779646166307236" ++
   "75726E366164677579736830757365716C63787A6E3071370A3E3E3E0A3E3E3E206578697428290A616D6E6573696140" ++
   "616D6E657369613A7E2F63617368616464726573732D312E302E35240A0A23020000000000001976A91403B7892656A4" ++
   "C3DF81B2F3E974F8E5ED2DC78DEE88AC23020000000000001976A914075B7DFCA1465DAA6F51B8497AF83C10042EF399" ++
   "88AC23020000000000001976A91408D2DE7257E4F777653B939C6BCB7401AEABF1FF88AC23020000000000001976A914" ++
   "04D9D15E67E6F20551992E03039711E59281F72888AC23020000000000001976A91406F61B94F0E562E41E7137A8B0AA" ++
   "78DB6102925788AC23020000000000001976A91409CC4CB806F792FE235C1B8149C0267B12067C9788AC230200000000" ++
   "00001976A9140A9598557E4075D6543A51A33A6A84D6945B6A8E88AC23020000000000001976A914858BCAD4B16B4D71" ++
   "E42583496A2E152BD5C53D0B88AC23020000000000001976A914BE85D05E29583DFEF599C4CCCF5E29A38971458F88AC" ++
   "23020000000000001976A91478BA86C946A25A01FCE6A7B6734F99892A00A9F388AC23020000000000001976A914C728" ++
   "FE716A82F3E513BA5CA8E3056ADE5C56070988AC23020000000000001976A914FAF13C7A6B1F9E6F064812C8AF96A0B5" ++
   "3519B67388AC23020000000000001976A9141EF47DCE94094E0FAE1E4DFB1C1ABEEF8639C09988AC2302000000000000" ++
   "1976A9141A6C3CBA5975DF50D416477927E255209661C10388AC23020000000000001976A914EA7540961D17E138986D" ++
   "ED210E09DEB680F89E4B88AC23020000000000001976A9142D803E6AD19EA6516C9685B261076E6F3172BBBE88AC2302" ++
   "0000000000001976A91444179DC3E751CB0A62169117D5CC3404C742011688AC23020000000000001976A9144A5FA1E5" ++
   "E423D9B0B0F8E6603117F24584427B7788AC23020000000000001976A91421F74480F59A99C25026A7A322F7300C1881" ++
   "76E088AC23020000000000001976A914E792349AE30166B5D0D434AC13EAE5498FCFD95588AC23020000000000001976" ++
   "A9145A9BB733B8BBE6296C59B5585BCB57243A5E918488AC23020000000000001976A914EDE03320A2DCA42E7A301D75" ++
   "9D7BF78729D944E188AC23020000000000001976A914971415E715E8DE8FE848156B6FB8FB12B751356A88AC23020000" ++
   "000000001976A914E15A983D92F5D4957DF1D1676F316FF5FD350CA488AC23020000000000001976A914E748BC738BB6" ++
   "37802839F65795B82593EAC5931288AC23020000000000001976A91417E445B47CF02F0298E6D4171D7468F1F62CD58B" ++
   "88AC23020000000000001976A9145345667FA8D1AEC205C4BB7EE721AAFECA454C1988AC23020000000000001976A914" ++
   "4F8D72D65AC474B237C5A0DA02198A940E9E418E88AC23020000000000001976A914064978BD0956501F022C88A8DC14" ++
   "F95EBE3311B888AC23020000000000001976A9143B85AA69A9DE41ADC6ECD1568E6CB9514A01E16688AC230200000000" ++
   "00001976A9141688D860148A224AD738CA702F60D810164E952888AC23020000000000001976A914A629F4074CE0E4E1" ++
   "2D99E387B0E05C1F45124CB688AC23020000000000001976A9140A93802C925565CECD03CC1CD2B5AD89942A6B3188AC" ++
   "23020000000000001976A9144C6C374E99668E1D8981D8DAE70BFA6E51D82FB188AC23020000000000001976A914C081" ++
   "8607A96E3FA026719D26816BBC6EAC4B827C88AC23020000000000001976A914164173A0BBFA31046D12BFB9FAD0F8F2" ++
   "4746616388AC23020000000000001976A914E9D00DEC2E8E265E66C5A58AB8D73F507C8D10F488AC2302000000000000" ++
   "1976A914AE9E288B12A60B31A891384FD3D7041CF3B6E74588AC23020000000000001976A914F0AFB4AD8AFE420C06EA" ++
   "AF7F2CEA1028103EF2DB88AC23020000000000001976A9147E8B8242BAE3BE4752759F9DCF29DFEA42A11FFB88AC2302" ++
   "0000000000001976A914340CFCFFE029E6935F4E4E5839A2FF5F29C7A57188AC23020000000000001976A914C230129F" ++
   "BB973E8040113293152BD54794B4199D88AC23020000000000001976A914BE8173FA5E6A2A8FE9DAE87049200A5D3D88" ++
   "562188AC23020000000000001976A914C69163CECAD874DFD04FB23B080746EDB4C2568B88AC23020000000000001976" ++
   "A914B8654228AB79E7C6F38DCE505A1BE3075606AF6E88AC23020000000000001976A914B9A564E26543BD66EE6738B5" ++
   "B4D9F5D2D1D2852788AC23020000000000001976A914652C9C52ACF6493E17A655C2ECD07300685F4E6B88AC23020000" ++
   "000000001976A91401702974C65369C609D3B35255434706A22902E188AC23020000000000001976A914BDD3E671D87C" ++
   "E62BAD69F123A29B112570BEA72488AC23020000000000001976A91485BA2A0C46A686E4808AA55E43306DA600287496" ++
   "88AC23020000000000001976A91451436BE6DEFFAC5B29A3B54F4935440C19BBB44A88AC23020000000000001976A914" ++
   "EF5A9A06D2B215399589A8E7821F31BC7DC344C188AC23020000000000001976A914E3B8591E6B015C7684AF698A28D9" ++
   "6D1A3E475B7A88AC23020000000000001976A914BA7F10AD717D894EC75910EF87B6F3FD5DFB220488AC230200000000" ++
   "00001976A9145614EC44C84339E4A8FA044D4A2FC18C07D7743B88AC23020000000000001976A91473795471CCFDDEF9" ++
   "867F41AE207CCF86C76F458288AC23020000000000001976A9143D76B2E081A774F8EC337436391A4C8055E92E0688AC" ++
   "23020000000000001976A914D049E00F7350D232AF8B907D300AC702E5DADBD188AC23020000000000001976A9148B47" ++
   "868DFEF2A41942DAEB409E6A45B15F6E693F88AC23020000000000001976A9143B829899F2333968CE9E7BCE8DF557FD" ++
   "F88BDF5F88AC23020000000000001976A914C20A7136BA44CFDFC758F375EF0A3DA4CECFF46188AC2302000000000000" ++
   "1976A9147776C649EEE08056264D31EF350D39C6A6ACC62888AC23020000000000001976A914BF6E6032D05A788B16B1" ++
   "30CC3F79AC04082DE37988AC23020000000000001976A914A5E669661DFA273F7BEE99C81BD3F8089ED7B0A688AC2302" ++
   "0000000000001976A9147AB72DF23957455D88B99DD0AC56BE2E0666C14A88AC23020000000000001976A914EE3C2C90" ++
   "3BF6092F7BA5D8139288EE15B34EBD7688AC23020000000000001976A914BED7447DABB27D54313C049739D1C73BAB42" ++
   "C67D88AC23020000000000001976A91470DE1882B67F68A1209EE04B3B3268D0055122E788AC23020000000000001976" ++
   "A914C43A71226F6CA844C39F64F3321FCB30CC8FF1F988AC23020000000000001976A9146C8E4DD8719473743F840007" ++
   "EACBC1059B8CE79988AC23020000000000001976A91405183076B66CB797312F2076FA0A0AA95E5D8C7988AC23020000" ++
   "000000001976A91405070D19A22991E762F8C46C1EAA45660445B70888AC23020000000000001976A914FD471D4643E9" ++
   "BED19915815F6EED309F1DDB2F3E88AC23020000000000001976A91443CF755DE8AB8A8A05590E9709849644E9C587A2" ++
   "88AC23020000000000001976A914D2563583E740E2648C11B8BBFD1747BD1AF429B288AC23020000000000001976A914" ++
   "10875BA01A898A59B1DFC75E4D37E9FE7FD8128E88AC23020000000000001976A9149B3819CF2CCF06E7EEA62F81E628" ++
   "790419E80ECB88AC23020000000000001976A914419939054E603DA3F2A3A51A8D78492127872BFB88AC230200000000" ++
   "00001976A91443C0A887E545114AD902A6EFE2CB1EB23BDBBEE588AC23020000000000001976A91498F564DA39028E64" ++
   "DF3E157669F9CDB7158ECA8788AC23020000000000001976A914DE808452D515E1AAB782EC759C05C67143D8A87488AC" ++
   "23020000000000001976A9141BD5159E6F5FF2F1B8672C056FA03DC0F50948D088AC23020000000000001976A9144ADD" ++
   "02E1CAB65B95B931F02E0D4FF55826F2A91588AC23020000000000001976A914DA705A34B85B23804887813EEAD45C4A" ++
   "1EE3537B88AC23020000000000001976A914EE022053B593AD4D69CB5D2623D4CD8011F626B088AC2302000000000000" ++
   "1976A914E7786CA96644FC3294EDE8F898465D39EFFE14CC88AC23020000000000001976A9145DF4C1461B731B52E34F" ++
   "4FCEB39159480F690F8988AC23020000000000001976A914B179F8B8B04A906A23CAFB0264D97B405CF8A20488AC2302" ++
   "0000000000001976A914EC9765CBA8EADAFE4E60F6F671471A1ADC20541188AC23020000000000001976A9147A5869AA" ++
   "97FB5AD993B712FED79346390877A6D588AC23020000000000001976A91430BBD6A1475A25F925BAFAC545F1F309E520" ++
   "201188AC23020000000000001976A9140C11E0AF648C09E5EBB87C102B87FAA97F2B5D3188AC23020000000000001976" ++
   "A91479179214336C6439E6CE9084D92E584BE2170DCD88AC23020000000000001976A914FA15440F78605E712B554469" ++
   "5F89F7A3AC718E0388AC23020000000000001976A914CA3FBD84606E6585FAF3C04C0D968EE2BACB18BB88AC23020000" ++
   "000000001976A914988E346F9CC4AD23C4CAE85EE053D0CCAB8FDB7188AC23020000000000001976A9146A488D875737" ++
   "69BBFE0A514B7A58932AAB48BCA188AC23020000000000001976A914946A23944EB147590794D582C9652700D3A674E0" ++
   "88AC23020000000000001976A9142A596A2C686D7F4E0E30A1BD940A829464A734F188AC23020000000000001976A914" ++
   "4DC29FDF91755087638CCF290F49D21FC412755088AC23020000000000001976A914BA40E4DEB205BB8ECBEE9C495D21" ++
   "9ED2945E02A988AC23020000000000001976A9149967FE4A31044F31122E93F2C6279EC2CA04797788AC230200000000" ++
   "00001976A914D1A8FBF4B187CC45ADCE3BB302C90EA0B8C4A9DD88AC23020000000000001976A91499B614D3BE932141" ++
   "D29A6CEE876742BB3B06984F88AC23020000000000001976A91483EE0D5123317182711D761FA5C504404141729F88AC" ++
   "23020000000000001976A914BFF42E6E53F3031AED7A85E2C69D1B029969074A88AC23020000000000001976A914C089" ++
   "65F6944CAC349AA27F1125A6C2F5D9DA2A1588AC23020000000000001976A914714B401DAD2D9D4F2D127A990A38962A" ++
   "9BC4FD5688AC17D7FC08000000001976A9145773F7E192A69985C4EFAEA268C1D27BD089D58B88AC00000000")%string.

Succeed Example transaction_2 :
  let t1 := tx_of_slice vx_first in
  let t2 := tx_of_slice vx_second in
  tx_size t1 = 192 /\ tx_size t2 = 191 /\ tx_bytes t1 = Some vx_first /\ tx_bytes t2 = Some vx_second
  /\ map (fun i => op_digest (in_ref i)) (tx_inputs t2) = [sha256d vx_first] :=
  ltac:(vm_compute; repeat split; reflexivity).

Succeed Example transaction_1 :
  let t := tx_of_slice vx_long in
  len vx_long = 7676 /\ tx_size t = 7676 /\ tx_valid t = Ret true /\ tx_version t = 1%Z /\ length (tx_inputs t) = 1%nat
  /\ length (tx_outputs t) = 110%nat /\ tx_locktime t = 0 /\ tx_bytes t = Some vx_long
  /\ option_map (fun o => template_read [x81] p2a_pattern zero20 (out_script o)) (nth_error (tx_outputs t) 0) = Some (Ret zero20) :=
  ltac:(vm_compute; repeat split; reflexivity).

Succeed Example transaction_1_id : le_val (sha256d vx_long) = 0x0473718d87e0bd19437d19da0454873c074d5c9698d9e6e41b0c5cae2dcbe202 :=
  ltac:(vm_compute; reflexivity).

(* ECDSA (SEC 1, 4.1.4).  A point is given to the model as one number *)
Definition vx_point (x y : Z) : N := Z.to_N x * 2 ^ 256 + Z.to_N y.
Definition vx_parse (b : bytes) : option N :=
  match b with
  | c :: r =>
      if negb ((length r =? 32)%nat && (byte_eqb c x02 || byte_eqb c x03)) then None
      else
        let x := Z.of_N (be_val r) in
        let y2 := cv_plus (cv_times x (cv_times x x)) 7 in
        let y := cv_sqrt y2 in
        if negb (cv_times y y =? y2)%Z then None
        else Some (vx_point x (if Bool.eqb (Z.even y) (byte_eqb c x02) then y else cv_p - y)%Z)
  | [] => None
  end.
(* the Euclidean algorithm: the inverse of s modulo the order *)
Fixpoint vx_euclid (fuel : nat) (a b u v : Z) : Z :=
  match fuel with
  | O => 0%Z
  | S f => if (b =? 0)%Z then (u mod cv_order)%Z else vx_euclid f b (a mod b)%Z v (u - a / b * v)%Z
  end.
Definition vx_inverse (s : Z) : Z := vx_euclid 400 s cv_order 1 0.
Definition vx_base (n : Z) (g : cv_jac) : cv_jac := match n with Zpos k => cv_mul k g | _ => cv_zero end.
Definition vx_ecdsa (p : N) (h : bytes) (rs : N * N) : bool :=
  let q := (Z.of_N (p / 2 ^ 256), Z.of_N (p mod 2 ^ 256), 1%Z) in
  let r := Z.of_N (fst rs) in
  let w := vx_inverse (Z.of_N (snd rs)) in
  let u1 := (Z.of_N (be_val h) * w mod cv_order)%Z in
  let u2 := (r * w mod cv_order)%Z in
  match cv_affine (cv_add (vx_base u1 cv_G) (vx_base u2 q)) with
  | Some (x, _) => (x mod cv_order =? r)%Z
  | None => false
  end.
Definition vx_der (x : bytes) : option (N * N) := match lax_parse x with Ret y => y | _ => None end.
Definition vx_true (x : outcome unit bool) : bool := match x with Ret b => b | _ => false end.
Definition vx_redemption (t : tx) (v : Z) (f : flag) : option rdoc :=
  redemption sha256d vx_parse vx_der vx_ecdsa (fun k => (length k =? 33)%nat) (fun s => vx_true (sig_minimal s))
    (fun s => vx_true (sig_normalized s)) (itx_of t) 0 v f.
Definition vx_externals : externals :=
  {| x_ripemd160 := ripemd160; x_sha1 := sha1; x_sha256 := sha256; x_div := Z.quot; x_mod := Z.rem |}.
Definition vx_spend (v : Z) (f : flag) : outcome sexn result :=
  match tx_inputs (tx_of_slice vx_second), tx_outputs (tx_of_slice vx_first) with
  | [i], [o] => evaluate vx_externals (vx_redemption (tx_of_slice vx_second) v f) (script_config f false) [x81] (in_script i) (out_script o)
  | _, _ => Undef
  end.

(* every flag of the profile in force after Genesis; the amount is that of the output spent *)
Succeed Example spend_second :
  map out_value (tx_outputs (tx_of_slice vx_first)) = [0x663e%Z]
  /\ vx_spend 0x663e genesis_profile = Ret (result_of_bool true) :=
  ltac:(vm_compute; split; reflexivity).
Succeed Example spend_other_amount : vx_spend 0x663f genesis_profile = Ret (result_of_error E_SIG_NULLFAIL) :=
  ltac:(vm_compute; reflexivity).
