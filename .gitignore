*.vo
*.vos
*.vok
*.glob
.*.aux
*.aux
rocq/Makefile
rocq/Makefile.conf
rocq/.Makefile.d
rocq/.coqdeps.d
.lia.cache
.nia.cache
