     = [RError None; RError None]
     : list reply
     = (27, 2)
     : nat * nat
     = [("Bank Account"%string, 0); ("Credit Card"%string, 2);
        ("Database"%string, 1); ("Driver License"%string, 1);
        ("Email"%string, 1); ("Identity"%string, 2); (
        "Login"%string, 10); ("Membership"%string, 1);
        ("Outdoor License"%string, 1); ("Passport"%string, 1);
        ("Password"%string, 0); ("Rewards"%string, 1); (
        "Router"%string, 0); ("Secure Note"%string, 2); (
        "Server"%string, 1); ("Software License"%string, 2);
        ("SSN"%string, 1); ("Tombstone"%string, 0)]
     : list (string * nat)
     = [("Bank of America"%string, "EC0A40400ABB4B16926B7417E95C9669"%string);
        ("Company's FTP"%string, "4E36C011EE8348B1B24418218B04018C"%string);
        ("Dropbox"%string, "468B1E24F93B413DAD57ABE6F1C01DF6"%string);
        ("Hulu"%string, "13C8E12AC8E54B1F873BAB0824E521BC"%string);
        ("Last.fm"%string, "72366D161D9E43D98E58EB801DAD1EF8"%string);
        ("MobileMe"%string, "F7883ADDE5944B349ABB5CBEC20F39BE"%string);
        ("Skype"%string, "2A632FDD32F5445E91EB5636C7580447"%string);
        ("The Unofficial Apple Weblog"%string,
         "D8F79F17D6384808848B213EB4946ECA"%string);
        ("Tumblr"%string, "5ADFF73C09004C448D45565BC4750DE2"%string);
        ("YouTube"%string, "358B7411EB8B45CD9CE592ED16F3E9DE"%string);
        ("CapitalOne MasterCard ***3456"%string,
         "D06307ADA44C4031BA2FF4B174DE79CB"%string);
        ("Chase VISA ***4356"%string,
         "E482B70C038D4DD78A0940728FA737BF"%string);
        ("A note with some attachments"%string,
         "F2DB5DA3FCA64372A751E0E85C67A538"%string);
        ("What is a Secure Note?"%string,
         "D1820AA8CB534AC6A4B5A2C0263FD3B2"%string);
        ("Business"%string, "F3707FA58EA7480884BC6A662658E039"%string);
        ("Personal"%string, "0EDE2B13D7AC4E2C9105842682ACB187"%string);
        ("1Password"%string, "F78CEC04078743B6975511A6FDDBED7E"%string);
        ("TextExpander"%string, "F5F099B210F248348E22934DDC3338B2"%string);
        ("Orders"%string, "27DCFA2810B24083A3ECC7CEABC7C0A9"%string);
        ("Wendy's driver's license"%string,
         "1C7D72EFA19A4EE98DB7A9661D2F5732"%string);
        ("Snipe Hunting License"%string,
         "A2D44483145F4B41A849FE5FEA4B504D"%string);
        ("Johnny Appleseed Society"%string,
         "FF445AB1497241A28812363154E1A738"%string);
        ("Wendy's passport"%string, "E0D293D29B10483F8DFDAC72ED0BE5C0"%string);
        ("Tim Hortons"%string, "8445A23B5740455DA360FEA379C3CC90"%string);
        ("Social Security"%string, "67979020CCA54120BAFA2742C3F23F2B"%string);
        ("example.com"%string, "372E1D51AA1D44CB9F17D8AA70ADA9A6"%string);
        ("Email Account"%string, "FD2EADB43C4F4FC7BEB35A1692DDFDEA"%string)]
     : list (string * string)
     = ["A note to Trash"%string; ""%string]
     : list string
     = ["The Unofficial Apple Weblog"%string;
        "CapitalOne MasterCard ***3456"%string;
        "Johnny Appleseed Society"%string]
     : list string
     = Some "Personal"%string
     : option string
     = Some "A note to Trash"%string
     : option string
     = Some
         [(""%string,
           [("Username"%string, "wendy@appleseed.com"%string);
            ("Password"%string, "snaip5uc5keds7as5ocs"%string)])]
     : option (list (string * list (string * string)))
     = Some ErrInvalidPass
     : option goerr
