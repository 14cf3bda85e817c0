*.vo
*.vos
*.vok
*.glob
.*.aux
.lia.cache
rocq/Makefile
rocq/Makefile.conf
rocq/.Makefile.d
.nia.cache
.lia.cache
rocq/.nia.cache
rocq/.lia.cache
